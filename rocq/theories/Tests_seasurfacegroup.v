(** Generated by tools/gen_tests.py from /repo/test/test_seasurfacegroup.cpp: the project's own unit tests, run
    against the model. These are tests of the model's fidelity, not properties. *)

From Verif Require Import Prim Regex Float Values Weather Groups1 Groups2 Groups3 Groups4 Parser TestLib.
Local Open Scope string_scope.
Local Open Scope bool_scope.

Definition t_SeaSurfaceGroup_parseStateOfSeaSurface : option N :=
    step 21 ((SeaSurfaceGroup_parse "W15/S4" RP_METAR md_default)) (fun v1 => 
    chk 22 (Ok (has_value v1)) (
    chk 23 (let! v2 := deref v1 in Ok (TempUnit_beq Temp_C Temp_C)) (
    chk 24 (let! v3 := deref v1 in Ok (has_value (Temperature_temperature (ss_t v3)))) (
    chk 25 (let! v4 := deref v1 in let! v5 := deref (Temperature_temperature (ss_t v4)) in Ok (flt_eqb v5 (dlit (15) 1))) (
    chk 26 (let! v6 := deref v1 in Ok (WhType_beq (whType (ss_wh v6)) Wh_STATE_OF_SURFACE)) (
    chk 27 (let! v7 := deref v1 in Ok (StateOfSurface_beq (WaveHeight_stateOfSurface (ss_wh v7)) SS_MODERATE)) (
    None))))))).

Definition t_SeaSurfaceGroup_parseStateOfSeaSurfaceTemperatureNotReported : option N :=
    step 31 ((SeaSurfaceGroup_parse "W///S4" RP_METAR md_default)) (fun v1 => 
    chk 32 (Ok (has_value v1)) (
    chk 33 (let! v2 := deref v1 in Ok (negb (has_value (Temperature_temperature (ss_t v2))))) (
    chk 34 (let! v3 := deref v1 in Ok (WhType_beq (whType (ss_wh v3)) Wh_STATE_OF_SURFACE)) (
    chk 35 (let! v4 := deref v1 in Ok (StateOfSurface_beq (WaveHeight_stateOfSurface (ss_wh v4)) SS_MODERATE)) (
    None))))).

Definition t_SeaSurfaceGroup_parseStateOfSeaSurfaceStateNotReported : option N :=
    step 39 ((SeaSurfaceGroup_parse "W15/S/" RP_METAR md_default)) (fun v1 => 
    chk 40 (Ok (has_value v1)) (
    chk 41 (let! v2 := deref v1 in Ok (TempUnit_beq Temp_C Temp_C)) (
    chk 42 (let! v3 := deref v1 in Ok (has_value (Temperature_temperature (ss_t v3)))) (
    chk 43 (let! v4 := deref v1 in let! v5 := deref (Temperature_temperature (ss_t v4)) in Ok (flt_eqb v5 (dlit (15) 1))) (
    chk 44 (let! v6 := deref v1 in Ok (WhType_beq (whType (ss_wh v6)) Wh_STATE_OF_SURFACE)) (
    chk 45 (let! v7 := deref v1 in Ok (StateOfSurface_beq (WaveHeight_stateOfSurface (ss_wh v7)) SS_NOT_REPORTED)) (
    None))))))).

Definition t_SeaSurfaceGroup_parseStateOfSeaSurfaceTemperatureAndStateNotReported : option N :=
    step 49 ((SeaSurfaceGroup_parse "W///S/" RP_METAR md_default)) (fun v1 => 
    chk 50 (Ok (has_value v1)) (
    chk 51 (let! v2 := deref v1 in Ok (negb (has_value (Temperature_temperature (ss_t v2))))) (
    chk 52 (let! v3 := deref v1 in Ok (WhType_beq (whType (ss_wh v3)) Wh_STATE_OF_SURFACE)) (
    chk 53 (let! v4 := deref v1 in Ok (StateOfSurface_beq (WaveHeight_stateOfSurface (ss_wh v4)) SS_NOT_REPORTED)) (
    None))))).

Definition t_SeaSurfaceGroup_parseStateOfSeaSurfaceWrongReportPart : option N :=
    chk 57 (let! v1 := (SeaSurfaceGroup_parse "W15/S4" RP_UNKNOWN md_default) in Ok (negb (has_value v1))) (
    chk 58 (let! v2 := (SeaSurfaceGroup_parse "W15/S4" RP_HEADER md_default) in Ok (negb (has_value v2))) (
    chk 59 (let! v3 := (SeaSurfaceGroup_parse "W15/S4" RP_TAF md_default) in Ok (negb (has_value v3))) (
    chk 60 (let! v4 := (SeaSurfaceGroup_parse "W15/S4" RP_RMK md_default) in Ok (negb (has_value v4))) (
    None)))).

Definition t_SeaSurfaceGroup_parseStateOfSeaSurfaceWrongFormat : option N :=
    chk 64 (let! v1 := (SeaSurfaceGroup_parse "T15/S4" RP_METAR md_default) in Ok (negb (has_value v1))) (
    chk 65 (let! v2 := (SeaSurfaceGroup_parse "W15/T4" RP_METAR md_default) in Ok (negb (has_value v2))) (
    chk 66 (let! v3 := (SeaSurfaceGroup_parse "W5/S4" RP_METAR md_default) in Ok (negb (has_value v3))) (
    chk 67 (let! v4 := (SeaSurfaceGroup_parse "WM05/S4" RP_METAR md_default) in Ok (negb (has_value v4))) (
    chk 68 (let! v5 := (SeaSurfaceGroup_parse "WM5/S4" RP_METAR md_default) in Ok (negb (has_value v5))) (
    chk 69 (let! v6 := (SeaSurfaceGroup_parse "W015/S4" RP_METAR md_default) in Ok (negb (has_value v6))) (
    chk 70 (let! v7 := (SeaSurfaceGroup_parse "W15/S04" RP_METAR md_default) in Ok (negb (has_value v7))) (
    chk 71 (let! v8 := (SeaSurfaceGroup_parse "W1A/S4" RP_METAR md_default) in Ok (negb (has_value v8))) (
    chk 72 (let! v9 := (SeaSurfaceGroup_parse "W15/SA" RP_METAR md_default) in Ok (negb (has_value v9))) (
    chk 73 (let! v10 := (SeaSurfaceGroup_parse "W//S4" RP_METAR md_default) in Ok (negb (has_value v10))) (
    chk 74 (let! v11 := (SeaSurfaceGroup_parse "W////S4" RP_METAR md_default) in Ok (negb (has_value v11))) (
    chk 75 (let! v12 := (SeaSurfaceGroup_parse "W15/S" RP_METAR md_default) in Ok (negb (has_value v12))) (
    chk 76 (let! v13 := (SeaSurfaceGroup_parse "W15/S//" RP_METAR md_default) in Ok (negb (has_value v13))) (
    None))))))))))))).

Definition t_SeaSurfaceGroup_parseWaveHeightOneDigit : option N :=
    step 87 ((SeaSurfaceGroup_parse "W16/H7" RP_METAR md_default)) (fun v1 => 
    chk 88 (Ok (has_value v1)) (
    chk 89 (let! v2 := deref v1 in Ok (TempUnit_beq Temp_C Temp_C)) (
    chk 90 (let! v3 := deref v1 in Ok (has_value (Temperature_temperature (ss_t v3)))) (
    chk 91 (let! v4 := deref v1 in let! v5 := deref (Temperature_temperature (ss_t v4)) in Ok (flt_eqb v5 (dlit (16) 1))) (
    chk 92 (let! v6 := deref v1 in Ok (WhType_beq (whType (ss_wh v6)) Wh_WAVE_HEIGHT)) (
    chk 93 (let! v7 := deref v1 in Ok (WhUnit_beq Wh_METERS Wh_METERS)) (
    chk 94 (let! v8 := deref v1 in Ok (has_value (WaveHeight_waveHeight (ss_wh v8)))) (
    chk 95 (let! v9 := deref v1 in let! v10 := deref (WaveHeight_waveHeight (ss_wh v9)) in Ok (near v10 (dlit (7) 10) (dlit (1) 20))) (
    None))))))))).

Definition t_SeaSurfaceGroup_parseWaveHeightTwoDigits : option N :=
    step 99 ((SeaSurfaceGroup_parse "W15/H23" RP_METAR md_default)) (fun v1 => 
    chk 100 (Ok (has_value v1)) (
    chk 101 (let! v2 := deref v1 in Ok (TempUnit_beq Temp_C Temp_C)) (
    chk 102 (let! v3 := deref v1 in Ok (has_value (Temperature_temperature (ss_t v3)))) (
    chk 103 (let! v4 := deref v1 in let! v5 := deref (Temperature_temperature (ss_t v4)) in Ok (flt_eqb v5 (dlit (15) 1))) (
    chk 104 (let! v6 := deref v1 in Ok (WhType_beq (whType (ss_wh v6)) Wh_WAVE_HEIGHT)) (
    chk 105 (let! v7 := deref v1 in Ok (WhUnit_beq Wh_METERS Wh_METERS)) (
    chk 106 (let! v8 := deref v1 in Ok (has_value (WaveHeight_waveHeight (ss_wh v8)))) (
    chk 107 (let! v9 := deref v1 in let! v10 := deref (WaveHeight_waveHeight (ss_wh v9)) in Ok (near v10 (dlit (23) 10) (dlit (1) 20))) (
    None))))))))).

Definition t_SeaSurfaceGroup_parseWaveHeightThreeDigits : option N :=
    step 111 ((SeaSurfaceGroup_parse "W17/H100" RP_METAR md_default)) (fun v1 => 
    chk 112 (Ok (has_value v1)) (
    chk 113 (let! v2 := deref v1 in Ok (TempUnit_beq Temp_C Temp_C)) (
    chk 114 (let! v3 := deref v1 in Ok (has_value (Temperature_temperature (ss_t v3)))) (
    chk 115 (let! v4 := deref v1 in let! v5 := deref (Temperature_temperature (ss_t v4)) in Ok (flt_eqb v5 (dlit (17) 1))) (
    chk 116 (let! v6 := deref v1 in Ok (WhType_beq (whType (ss_wh v6)) Wh_WAVE_HEIGHT)) (
    chk 117 (let! v7 := deref v1 in Ok (WhUnit_beq Wh_METERS Wh_METERS)) (
    chk 118 (let! v8 := deref v1 in Ok (has_value (WaveHeight_waveHeight (ss_wh v8)))) (
    chk 119 (let! v9 := deref v1 in let! v10 := deref (WaveHeight_waveHeight (ss_wh v9)) in Ok (near v10 (dlit (10) 1) (dlit (1) 20))) (
    None))))))))).

Definition t_SeaSurfaceGroup_parseWaveHeightTemperatureNotReported : option N :=
    step 123 ((SeaSurfaceGroup_parse "W///H23" RP_METAR md_default)) (fun v1 => 
    chk 124 (Ok (has_value v1)) (
    chk 125 (let! v2 := deref v1 in Ok (negb (has_value (Temperature_temperature (ss_t v2))))) (
    chk 126 (let! v3 := deref v1 in Ok (WhType_beq (whType (ss_wh v3)) Wh_WAVE_HEIGHT)) (
    chk 127 (let! v4 := deref v1 in Ok (WhUnit_beq Wh_METERS Wh_METERS)) (
    chk 128 (let! v5 := deref v1 in Ok (has_value (WaveHeight_waveHeight (ss_wh v5)))) (
    chk 129 (let! v6 := deref v1 in let! v7 := deref (WaveHeight_waveHeight (ss_wh v6)) in Ok (near v7 (dlit (23) 10) (dlit (1) 20))) (
    None))))))).

Definition t_SeaSurfaceGroup_parseWaveHeightWaveHeightNotReported : option N :=
    step 133 ((SeaSurfaceGroup_parse "W15/H///" RP_METAR md_default)) (fun v1 => 
    chk 134 (Ok (has_value v1)) (
    chk 135 (let! v2 := deref v1 in Ok (TempUnit_beq Temp_C Temp_C)) (
    chk 136 (let! v3 := deref v1 in Ok (has_value (Temperature_temperature (ss_t v3)))) (
    chk 137 (let! v4 := deref v1 in let! v5 := deref (Temperature_temperature (ss_t v4)) in Ok (flt_eqb v5 (dlit (15) 1))) (
    chk 138 (let! v6 := deref v1 in Ok (WhUnit_beq Wh_METERS Wh_METERS)) (
    chk 139 (let! v7 := deref v1 in Ok (negb (has_value (WaveHeight_waveHeight (ss_wh v7))))) (
    None))))))).

Definition t_SeaSurfaceGroup_parseWaveHeightTemperatureAndWaveHeightNotReported : option N :=
    step 143 ((SeaSurfaceGroup_parse "W///H///" RP_METAR md_default)) (fun v1 => 
    chk 144 (Ok (has_value v1)) (
    chk 145 (let! v2 := deref v1 in Ok (negb (has_value (Temperature_temperature (ss_t v2))))) (
    chk 146 (let! v3 := deref v1 in Ok (WhType_beq (whType (ss_wh v3)) Wh_WAVE_HEIGHT)) (
    chk 147 (let! v4 := deref v1 in Ok (negb (has_value (WaveHeight_waveHeight (ss_wh v4))))) (
    None))))).

Definition t_SeaSurfaceGroup_parseWaveHeightWrongReportPart : option N :=
    chk 151 (let! v1 := (SeaSurfaceGroup_parse "W15/H23" RP_UNKNOWN md_default) in Ok (negb (has_value v1))) (
    chk 152 (let! v2 := (SeaSurfaceGroup_parse "W15/H23" RP_HEADER md_default) in Ok (negb (has_value v2))) (
    chk 153 (let! v3 := (SeaSurfaceGroup_parse "W15/H23" RP_TAF md_default) in Ok (negb (has_value v3))) (
    chk 154 (let! v4 := (SeaSurfaceGroup_parse "W15/H23" RP_RMK md_default) in Ok (negb (has_value v4))) (
    None)))).

Definition t_SeaSurfaceGroup_parseWaveHeightWrongFormat : option N :=
    chk 158 (let! v1 := (SeaSurfaceGroup_parse "T15/H23" RP_METAR md_default) in Ok (negb (has_value v1))) (
    chk 159 (let! v2 := (SeaSurfaceGroup_parse "W15/T23" RP_METAR md_default) in Ok (negb (has_value v2))) (
    chk 160 (let! v3 := (SeaSurfaceGroup_parse "W5/H23" RP_METAR md_default) in Ok (negb (has_value v3))) (
    chk 161 (let! v4 := (SeaSurfaceGroup_parse "WM5/H23" RP_METAR md_default) in Ok (negb (has_value v4))) (
    chk 162 (let! v5 := (SeaSurfaceGroup_parse "WM15/H23" RP_METAR md_default) in Ok (negb (has_value v5))) (
    chk 163 (let! v6 := (SeaSurfaceGroup_parse "W015/H23" RP_METAR md_default) in Ok (negb (has_value v6))) (
    chk 164 (let! v7 := (SeaSurfaceGroup_parse "W15/H0023" RP_METAR md_default) in Ok (negb (has_value v7))) (
    chk 165 (let! v8 := (SeaSurfaceGroup_parse "W1A/H23" RP_METAR md_default) in Ok (negb (has_value v8))) (
    chk 166 (let! v9 := (SeaSurfaceGroup_parse "W15/H2A" RP_METAR md_default) in Ok (negb (has_value v9))) (
    chk 167 (let! v10 := (SeaSurfaceGroup_parse "W//H23" RP_METAR md_default) in Ok (negb (has_value v10))) (
    chk 168 (let! v11 := (SeaSurfaceGroup_parse "W////H23" RP_METAR md_default) in Ok (negb (has_value v11))) (
    chk 169 (let! v12 := (SeaSurfaceGroup_parse "W15/H" RP_METAR md_default) in Ok (negb (has_value v12))) (
    chk 170 (let! v13 := (SeaSurfaceGroup_parse "W15/H//" RP_METAR md_default) in Ok (negb (has_value v13))) (
    chk 171 (let! v14 := (SeaSurfaceGroup_parse "W15/H////" RP_METAR md_default) in Ok (negb (has_value v14))) (
    None)))))))))))))).

Definition t_SeaSurfaceGroup_append : option N :=
    step 192 ((SeaSurfaceGroup_parse "W15/S4" RP_METAR md_default)) (fun v1 => 
    chk 193 (Ok (has_value v1)) (
    step 195 ((SeaSurfaceGroup_parse "W15/S/" RP_METAR md_default)) (fun v2 => 
    chk 196 (Ok (has_value v2)) (
    step 198 ((SeaSurfaceGroup_parse "W15/S/" RP_METAR md_default)) (fun v3 => 
    chk 199 (Ok (has_value v3)) (
    step 201 ((SeaSurfaceGroup_parse "W15/S/" RP_METAR md_default)) (fun v4 => 
    chk 202 (Ok (has_value v4)) (
    step 204 ((SeaSurfaceGroup_parse "W15/S/" RP_METAR md_default)) (fun v5 => 
    chk 205 (Ok (has_value v5)) (
    step 207 ((SeaSurfaceGroup_parse "W15/S/" RP_METAR md_default)) (fun v6 => 
    chk 208 (Ok (has_value v6)) (
    step 210 ((SeaSurfaceGroup_parse "W15/S/" RP_METAR md_default)) (fun v7 => 
    chk 211 (Ok (has_value v7)) (
    step 213 ((SeaSurfaceGroup_parse "W15/S/" RP_METAR md_default)) (fun v8 => 
    chk 214 (Ok (has_value v8)) (
    step 216 (let! v9 := deref v1 in SeaSurfaceGroup_append v9 "W15/S4" RP_METAR md_default) (fun p => let v10 := Some (fst p) in let v11 := snd p in 
    chk 216 (Ok (AppendResult_beq v11 NOT_APPENDED)) (
    step 218 (let! v12 := deref v10 in SeaSurfaceGroup_append v12 "W15/S/" RP_METAR md_default) (fun p => let v13 := Some (fst p) in let v14 := snd p in 
    chk 218 (Ok (AppendResult_beq v14 NOT_APPENDED)) (
    step 220 (let! v15 := deref v13 in SeaSurfaceGroup_append v15 "W///S4" RP_METAR md_default) (fun p => let v16 := Some (fst p) in let v17 := snd p in 
    chk 220 (Ok (AppendResult_beq v17 NOT_APPENDED)) (
    step 222 (let! v18 := deref v16 in SeaSurfaceGroup_append v18 "W///S/" RP_METAR md_default) (fun p => let v19 := Some (fst p) in let v20 := snd p in 
    chk 222 (Ok (AppendResult_beq v20 NOT_APPENDED)) (
    step 224 (let! v21 := deref v19 in SeaSurfaceGroup_append v21 "W20/H5" RP_METAR md_default) (fun p => let v22 := Some (fst p) in let v23 := snd p in 
    chk 224 (Ok (AppendResult_beq v23 NOT_APPENDED)) (
    step 226 (let! v24 := deref v22 in SeaSurfaceGroup_append v24 "W20/H/" RP_METAR md_default) (fun p => let v25 := Some (fst p) in let v26 := snd p in 
    chk 226 (Ok (AppendResult_beq v26 NOT_APPENDED)) (
    step 228 (let! v27 := deref v25 in SeaSurfaceGroup_append v27 "W///H5" RP_METAR md_default) (fun p => let v28 := Some (fst p) in let v29 := snd p in 
    chk 228 (Ok (AppendResult_beq v29 NOT_APPENDED)) (
    step 230 (let! v30 := deref v28 in SeaSurfaceGroup_append v30 "W///H/" RP_METAR md_default) (fun p => let v31 := Some (fst p) in let v32 := snd p in 
    chk 230 (Ok (AppendResult_beq v32 NOT_APPENDED)) (
    step 232 (let! v33 := deref v31 in SeaSurfaceGroup_append v33 "RMK" RP_METAR md_default) (fun p => let v34 := Some (fst p) in let v35 := snd p in 
    chk 232 (Ok (AppendResult_beq v35 NOT_APPENDED)) (
    step 234 (let! v36 := deref v34 in SeaSurfaceGroup_append v36 "TEST" RP_METAR md_default) (fun p => let v37 := Some (fst p) in let v38 := snd p in 
    chk 234 (Ok (AppendResult_beq v38 NOT_APPENDED)) (
    step 237 (let! v39 := deref v2 in SeaSurfaceGroup_append v39 "W15/S4" RP_METAR md_default) (fun p => let v40 := Some (fst p) in let v41 := snd p in 
    chk 237 (Ok (AppendResult_beq v41 NOT_APPENDED)) (
    step 239 (let! v42 := deref v40 in SeaSurfaceGroup_append v42 "W15/S/" RP_METAR md_default) (fun p => let v43 := Some (fst p) in let v44 := snd p in 
    chk 239 (Ok (AppendResult_beq v44 NOT_APPENDED)) (
    step 241 (let! v45 := deref v43 in SeaSurfaceGroup_append v45 "W///S4" RP_METAR md_default) (fun p => let v46 := Some (fst p) in let v47 := snd p in 
    chk 241 (Ok (AppendResult_beq v47 NOT_APPENDED)) (
    step 243 (let! v48 := deref v46 in SeaSurfaceGroup_append v48 "W///S/" RP_METAR md_default) (fun p => let v49 := Some (fst p) in let v50 := snd p in 
    chk 243 (Ok (AppendResult_beq v50 NOT_APPENDED)) (
    step 245 (let! v51 := deref v49 in SeaSurfaceGroup_append v51 "W20/H5" RP_METAR md_default) (fun p => let v52 := Some (fst p) in let v53 := snd p in 
    chk 245 (Ok (AppendResult_beq v53 NOT_APPENDED)) (
    step 247 (let! v54 := deref v52 in SeaSurfaceGroup_append v54 "W20/H/" RP_METAR md_default) (fun p => let v55 := Some (fst p) in let v56 := snd p in 
    chk 247 (Ok (AppendResult_beq v56 NOT_APPENDED)) (
    step 249 (let! v57 := deref v55 in SeaSurfaceGroup_append v57 "W///H5" RP_METAR md_default) (fun p => let v58 := Some (fst p) in let v59 := snd p in 
    chk 249 (Ok (AppendResult_beq v59 NOT_APPENDED)) (
    step 251 (let! v60 := deref v58 in SeaSurfaceGroup_append v60 "W///H/" RP_METAR md_default) (fun p => let v61 := Some (fst p) in let v62 := snd p in 
    chk 251 (Ok (AppendResult_beq v62 NOT_APPENDED)) (
    step 253 (let! v63 := deref v61 in SeaSurfaceGroup_append v63 "RMK" RP_METAR md_default) (fun p => let v64 := Some (fst p) in let v65 := snd p in 
    chk 253 (Ok (AppendResult_beq v65 NOT_APPENDED)) (
    step 255 (let! v66 := deref v64 in SeaSurfaceGroup_append v66 "TEST" RP_METAR md_default) (fun p => let v67 := Some (fst p) in let v68 := snd p in 
    chk 255 (Ok (AppendResult_beq v68 NOT_APPENDED)) (
    step 258 (let! v69 := deref v3 in SeaSurfaceGroup_append v69 "W15/S4" RP_METAR md_default) (fun p => let v70 := Some (fst p) in let v71 := snd p in 
    chk 258 (Ok (AppendResult_beq v71 NOT_APPENDED)) (
    step 260 (let! v72 := deref v70 in SeaSurfaceGroup_append v72 "W15/S/" RP_METAR md_default) (fun p => let v73 := Some (fst p) in let v74 := snd p in 
    chk 260 (Ok (AppendResult_beq v74 NOT_APPENDED)) (
    step 262 (let! v75 := deref v73 in SeaSurfaceGroup_append v75 "W///S4" RP_METAR md_default) (fun p => let v76 := Some (fst p) in let v77 := snd p in 
    chk 262 (Ok (AppendResult_beq v77 NOT_APPENDED)) (
    step 264 (let! v78 := deref v76 in SeaSurfaceGroup_append v78 "W///S/" RP_METAR md_default) (fun p => let v79 := Some (fst p) in let v80 := snd p in 
    chk 264 (Ok (AppendResult_beq v80 NOT_APPENDED)) (
    step 266 (let! v81 := deref v79 in SeaSurfaceGroup_append v81 "W20/H5" RP_METAR md_default) (fun p => let v82 := Some (fst p) in let v83 := snd p in 
    chk 266 (Ok (AppendResult_beq v83 NOT_APPENDED)) (
    step 268 (let! v84 := deref v82 in SeaSurfaceGroup_append v84 "W20/H/" RP_METAR md_default) (fun p => let v85 := Some (fst p) in let v86 := snd p in 
    chk 268 (Ok (AppendResult_beq v86 NOT_APPENDED)) (
    step 270 (let! v87 := deref v85 in SeaSurfaceGroup_append v87 "W///H5" RP_METAR md_default) (fun p => let v88 := Some (fst p) in let v89 := snd p in 
    chk 270 (Ok (AppendResult_beq v89 NOT_APPENDED)) (
    step 272 (let! v90 := deref v88 in SeaSurfaceGroup_append v90 "W///H/" RP_METAR md_default) (fun p => let v91 := Some (fst p) in let v92 := snd p in 
    chk 272 (Ok (AppendResult_beq v92 NOT_APPENDED)) (
    step 274 (let! v93 := deref v91 in SeaSurfaceGroup_append v93 "RMK" RP_METAR md_default) (fun p => let v94 := Some (fst p) in let v95 := snd p in 
    chk 274 (Ok (AppendResult_beq v95 NOT_APPENDED)) (
    step 276 (let! v96 := deref v94 in SeaSurfaceGroup_append v96 "TEST" RP_METAR md_default) (fun p => let v97 := Some (fst p) in let v98 := snd p in 
    chk 276 (Ok (AppendResult_beq v98 NOT_APPENDED)) (
    step 279 (let! v99 := deref v4 in SeaSurfaceGroup_append v99 "W15/S4" RP_METAR md_default) (fun p => let v100 := Some (fst p) in let v101 := snd p in 
    chk 279 (Ok (AppendResult_beq v101 NOT_APPENDED)) (
    step 281 (let! v102 := deref v100 in SeaSurfaceGroup_append v102 "W15/S/" RP_METAR md_default) (fun p => let v103 := Some (fst p) in let v104 := snd p in 
    chk 281 (Ok (AppendResult_beq v104 NOT_APPENDED)) (
    step 283 (let! v105 := deref v103 in SeaSurfaceGroup_append v105 "W///S4" RP_METAR md_default) (fun p => let v106 := Some (fst p) in let v107 := snd p in 
    chk 283 (Ok (AppendResult_beq v107 NOT_APPENDED)) (
    step 285 (let! v108 := deref v106 in SeaSurfaceGroup_append v108 "W///S/" RP_METAR md_default) (fun p => let v109 := Some (fst p) in let v110 := snd p in 
    chk 285 (Ok (AppendResult_beq v110 NOT_APPENDED)) (
    step 287 (let! v111 := deref v109 in SeaSurfaceGroup_append v111 "W20/H5" RP_METAR md_default) (fun p => let v112 := Some (fst p) in let v113 := snd p in 
    chk 287 (Ok (AppendResult_beq v113 NOT_APPENDED)) (
    step 289 (let! v114 := deref v112 in SeaSurfaceGroup_append v114 "W20/H/" RP_METAR md_default) (fun p => let v115 := Some (fst p) in let v116 := snd p in 
    chk 289 (Ok (AppendResult_beq v116 NOT_APPENDED)) (
    step 291 (let! v117 := deref v115 in SeaSurfaceGroup_append v117 "W///H5" RP_METAR md_default) (fun p => let v118 := Some (fst p) in let v119 := snd p in 
    chk 291 (Ok (AppendResult_beq v119 NOT_APPENDED)) (
    step 293 (let! v120 := deref v118 in SeaSurfaceGroup_append v120 "W///H/" RP_METAR md_default) (fun p => let v121 := Some (fst p) in let v122 := snd p in 
    chk 293 (Ok (AppendResult_beq v122 NOT_APPENDED)) (
    step 295 (let! v123 := deref v121 in SeaSurfaceGroup_append v123 "RMK" RP_METAR md_default) (fun p => let v124 := Some (fst p) in let v125 := snd p in 
    chk 295 (Ok (AppendResult_beq v125 NOT_APPENDED)) (
    step 297 (let! v126 := deref v124 in SeaSurfaceGroup_append v126 "TEST" RP_METAR md_default) (fun p => let v127 := Some (fst p) in let v128 := snd p in 
    chk 297 (Ok (AppendResult_beq v128 NOT_APPENDED)) (
    step 300 (let! v129 := deref v5 in SeaSurfaceGroup_append v129 "W15/S4" RP_METAR md_default) (fun p => let v130 := Some (fst p) in let v131 := snd p in 
    chk 300 (Ok (AppendResult_beq v131 NOT_APPENDED)) (
    step 302 (let! v132 := deref v130 in SeaSurfaceGroup_append v132 "W15/S/" RP_METAR md_default) (fun p => let v133 := Some (fst p) in let v134 := snd p in 
    chk 302 (Ok (AppendResult_beq v134 NOT_APPENDED)) (
    step 304 (let! v135 := deref v133 in SeaSurfaceGroup_append v135 "W///S4" RP_METAR md_default) (fun p => let v136 := Some (fst p) in let v137 := snd p in 
    chk 304 (Ok (AppendResult_beq v137 NOT_APPENDED)) (
    step 306 (let! v138 := deref v136 in SeaSurfaceGroup_append v138 "W///S/" RP_METAR md_default) (fun p => let v139 := Some (fst p) in let v140 := snd p in 
    chk 306 (Ok (AppendResult_beq v140 NOT_APPENDED)) (
    step 308 (let! v141 := deref v139 in SeaSurfaceGroup_append v141 "W20/H5" RP_METAR md_default) (fun p => let v142 := Some (fst p) in let v143 := snd p in 
    chk 308 (Ok (AppendResult_beq v143 NOT_APPENDED)) (
    step 310 (let! v144 := deref v142 in SeaSurfaceGroup_append v144 "W20/H/" RP_METAR md_default) (fun p => let v145 := Some (fst p) in let v146 := snd p in 
    chk 310 (Ok (AppendResult_beq v146 NOT_APPENDED)) (
    step 312 (let! v147 := deref v145 in SeaSurfaceGroup_append v147 "W///H5" RP_METAR md_default) (fun p => let v148 := Some (fst p) in let v149 := snd p in 
    chk 312 (Ok (AppendResult_beq v149 NOT_APPENDED)) (
    step 314 (let! v150 := deref v148 in SeaSurfaceGroup_append v150 "W///H/" RP_METAR md_default) (fun p => let v151 := Some (fst p) in let v152 := snd p in 
    chk 314 (Ok (AppendResult_beq v152 NOT_APPENDED)) (
    step 316 (let! v153 := deref v151 in SeaSurfaceGroup_append v153 "RMK" RP_METAR md_default) (fun p => let v154 := Some (fst p) in let v155 := snd p in 
    chk 316 (Ok (AppendResult_beq v155 NOT_APPENDED)) (
    step 318 (let! v156 := deref v154 in SeaSurfaceGroup_append v156 "TEST" RP_METAR md_default) (fun p => let v157 := Some (fst p) in let v158 := snd p in 
    chk 318 (Ok (AppendResult_beq v158 NOT_APPENDED)) (
    step 321 (let! v159 := deref v6 in SeaSurfaceGroup_append v159 "W15/S4" RP_METAR md_default) (fun p => let v160 := Some (fst p) in let v161 := snd p in 
    chk 321 (Ok (AppendResult_beq v161 NOT_APPENDED)) (
    step 323 (let! v162 := deref v160 in SeaSurfaceGroup_append v162 "W15/S/" RP_METAR md_default) (fun p => let v163 := Some (fst p) in let v164 := snd p in 
    chk 323 (Ok (AppendResult_beq v164 NOT_APPENDED)) (
    step 325 (let! v165 := deref v163 in SeaSurfaceGroup_append v165 "W///S4" RP_METAR md_default) (fun p => let v166 := Some (fst p) in let v167 := snd p in 
    chk 325 (Ok (AppendResult_beq v167 NOT_APPENDED)) (
    step 327 (let! v168 := deref v166 in SeaSurfaceGroup_append v168 "W///S/" RP_METAR md_default) (fun p => let v169 := Some (fst p) in let v170 := snd p in 
    chk 327 (Ok (AppendResult_beq v170 NOT_APPENDED)) (
    step 329 (let! v171 := deref v169 in SeaSurfaceGroup_append v171 "W20/H5" RP_METAR md_default) (fun p => let v172 := Some (fst p) in let v173 := snd p in 
    chk 329 (Ok (AppendResult_beq v173 NOT_APPENDED)) (
    step 331 (let! v174 := deref v172 in SeaSurfaceGroup_append v174 "W20/H/" RP_METAR md_default) (fun p => let v175 := Some (fst p) in let v176 := snd p in 
    chk 331 (Ok (AppendResult_beq v176 NOT_APPENDED)) (
    step 333 (let! v177 := deref v175 in SeaSurfaceGroup_append v177 "W///H5" RP_METAR md_default) (fun p => let v178 := Some (fst p) in let v179 := snd p in 
    chk 333 (Ok (AppendResult_beq v179 NOT_APPENDED)) (
    step 335 (let! v180 := deref v178 in SeaSurfaceGroup_append v180 "W///H/" RP_METAR md_default) (fun p => let v181 := Some (fst p) in let v182 := snd p in 
    chk 335 (Ok (AppendResult_beq v182 NOT_APPENDED)) (
    step 337 (let! v183 := deref v181 in SeaSurfaceGroup_append v183 "RMK" RP_METAR md_default) (fun p => let v184 := Some (fst p) in let v185 := snd p in 
    chk 337 (Ok (AppendResult_beq v185 NOT_APPENDED)) (
    step 339 (let! v186 := deref v184 in SeaSurfaceGroup_append v186 "TEST" RP_METAR md_default) (fun p => let v187 := Some (fst p) in let v188 := snd p in 
    chk 339 (Ok (AppendResult_beq v188 NOT_APPENDED)) (
    step 342 (let! v189 := deref v7 in SeaSurfaceGroup_append v189 "W15/S4" RP_METAR md_default) (fun p => let v190 := Some (fst p) in let v191 := snd p in 
    chk 342 (Ok (AppendResult_beq v191 NOT_APPENDED)) (
    step 344 (let! v192 := deref v190 in SeaSurfaceGroup_append v192 "W15/S/" RP_METAR md_default) (fun p => let v193 := Some (fst p) in let v194 := snd p in 
    chk 344 (Ok (AppendResult_beq v194 NOT_APPENDED)) (
    step 346 (let! v195 := deref v193 in SeaSurfaceGroup_append v195 "W///S4" RP_METAR md_default) (fun p => let v196 := Some (fst p) in let v197 := snd p in 
    chk 346 (Ok (AppendResult_beq v197 NOT_APPENDED)) (
    step 348 (let! v198 := deref v196 in SeaSurfaceGroup_append v198 "W///S/" RP_METAR md_default) (fun p => let v199 := Some (fst p) in let v200 := snd p in 
    chk 348 (Ok (AppendResult_beq v200 NOT_APPENDED)) (
    step 350 (let! v201 := deref v199 in SeaSurfaceGroup_append v201 "W20/H5" RP_METAR md_default) (fun p => let v202 := Some (fst p) in let v203 := snd p in 
    chk 350 (Ok (AppendResult_beq v203 NOT_APPENDED)) (
    step 352 (let! v204 := deref v202 in SeaSurfaceGroup_append v204 "W20/H/" RP_METAR md_default) (fun p => let v205 := Some (fst p) in let v206 := snd p in 
    chk 352 (Ok (AppendResult_beq v206 NOT_APPENDED)) (
    step 354 (let! v207 := deref v205 in SeaSurfaceGroup_append v207 "W///H5" RP_METAR md_default) (fun p => let v208 := Some (fst p) in let v209 := snd p in 
    chk 354 (Ok (AppendResult_beq v209 NOT_APPENDED)) (
    step 356 (let! v210 := deref v208 in SeaSurfaceGroup_append v210 "W///H/" RP_METAR md_default) (fun p => let v211 := Some (fst p) in let v212 := snd p in 
    chk 356 (Ok (AppendResult_beq v212 NOT_APPENDED)) (
    step 358 (let! v213 := deref v211 in SeaSurfaceGroup_append v213 "RMK" RP_METAR md_default) (fun p => let v214 := Some (fst p) in let v215 := snd p in 
    chk 358 (Ok (AppendResult_beq v215 NOT_APPENDED)) (
    step 360 (let! v216 := deref v214 in SeaSurfaceGroup_append v216 "TEST" RP_METAR md_default) (fun p => let v217 := Some (fst p) in let v218 := snd p in 
    chk 360 (Ok (AppendResult_beq v218 NOT_APPENDED)) (
    step 363 (let! v219 := deref v8 in SeaSurfaceGroup_append v219 "W15/S4" RP_METAR md_default) (fun p => let v220 := Some (fst p) in let v221 := snd p in 
    chk 363 (Ok (AppendResult_beq v221 NOT_APPENDED)) (
    step 365 (let! v222 := deref v220 in SeaSurfaceGroup_append v222 "W15/S/" RP_METAR md_default) (fun p => let v223 := Some (fst p) in let v224 := snd p in 
    chk 365 (Ok (AppendResult_beq v224 NOT_APPENDED)) (
    step 367 (let! v225 := deref v223 in SeaSurfaceGroup_append v225 "W///S4" RP_METAR md_default) (fun p => let v226 := Some (fst p) in let v227 := snd p in 
    chk 367 (Ok (AppendResult_beq v227 NOT_APPENDED)) (
    step 369 (let! v228 := deref v226 in SeaSurfaceGroup_append v228 "W///S/" RP_METAR md_default) (fun p => let v229 := Some (fst p) in let v230 := snd p in 
    chk 369 (Ok (AppendResult_beq v230 NOT_APPENDED)) (
    step 371 (let! v231 := deref v229 in SeaSurfaceGroup_append v231 "W20/H5" RP_METAR md_default) (fun p => let v232 := Some (fst p) in let v233 := snd p in 
    chk 371 (Ok (AppendResult_beq v233 NOT_APPENDED)) (
    step 373 (let! v234 := deref v232 in SeaSurfaceGroup_append v234 "W20/H/" RP_METAR md_default) (fun p => let v235 := Some (fst p) in let v236 := snd p in 
    chk 373 (Ok (AppendResult_beq v236 NOT_APPENDED)) (
    step 375 (let! v237 := deref v235 in SeaSurfaceGroup_append v237 "W///H5" RP_METAR md_default) (fun p => let v238 := Some (fst p) in let v239 := snd p in 
    chk 375 (Ok (AppendResult_beq v239 NOT_APPENDED)) (
    step 377 (let! v240 := deref v238 in SeaSurfaceGroup_append v240 "W///H/" RP_METAR md_default) (fun p => let v241 := Some (fst p) in let v242 := snd p in 
    chk 377 (Ok (AppendResult_beq v242 NOT_APPENDED)) (
    step 379 (let! v243 := deref v241 in SeaSurfaceGroup_append v243 "RMK" RP_METAR md_default) (fun p => let v244 := Some (fst p) in let v245 := snd p in 
    chk 379 (Ok (AppendResult_beq v245 NOT_APPENDED)) (
    step 381 (let! v246 := deref v244 in SeaSurfaceGroup_append v246 "TEST" RP_METAR md_default) (fun p => let v247 := Some (fst p) in let v248 := snd p in 
    chk 381 (Ok (AppendResult_beq v248 NOT_APPENDED)) (
    None)))))))))))))))))))))))))))))))))))))))))))))))))))))))))))))))))))))))))))))))))))))))))))))))))))))))))))))))))))))))))))))))))))))))))))))))))))))))))))))))))))))))))))))))).

Definition t_SeaSurfaceGroup_isValid : option N :=
    step 391 ((SeaSurfaceGroup_parse "W16/H7" RP_METAR md_default)) (fun v1 => 
    chk 392 (Ok (has_value v1)) (
    chk 393 (let! v2 := deref v1 in Ok (SeaSurfaceGroup_isValid v2)) (
    step 395 ((SeaSurfaceGroup_parse "W15/H23" RP_METAR md_default)) (fun v3 => 
    chk 396 (Ok (has_value v3)) (
    chk 397 (let! v4 := deref v3 in Ok (SeaSurfaceGroup_isValid v4)) (
    step 399 ((SeaSurfaceGroup_parse "W17/H100" RP_METAR md_default)) (fun v5 => 
    chk 400 (Ok (has_value v5)) (
    chk 401 (let! v6 := deref v5 in Ok (SeaSurfaceGroup_isValid v6)) (
    step 403 ((SeaSurfaceGroup_parse "W15/H///" RP_METAR md_default)) (fun v7 => 
    chk 404 (Ok (has_value v7)) (
    chk 405 (let! v8 := deref v7 in Ok (SeaSurfaceGroup_isValid v8)) (
    step 407 ((SeaSurfaceGroup_parse "W///H///" RP_METAR md_default)) (fun v9 => 
    chk 408 (Ok (has_value v9)) (
    chk 409 (let! v10 := deref v9 in Ok (SeaSurfaceGroup_isValid v10)) (
    step 411 ((SeaSurfaceGroup_parse "W15/S4" RP_METAR md_default)) (fun v11 => 
    chk 412 (Ok (has_value v11)) (
    chk 413 (let! v12 := deref v11 in Ok (SeaSurfaceGroup_isValid v12)) (
    step 415 ((SeaSurfaceGroup_parse "W///S4" RP_METAR md_default)) (fun v13 => 
    chk 416 (Ok (has_value v13)) (
    chk 417 (let! v14 := deref v13 in Ok (SeaSurfaceGroup_isValid v14)) (
    step 419 ((SeaSurfaceGroup_parse "W15/S/" RP_METAR md_default)) (fun v15 => 
    chk 420 (Ok (has_value v15)) (
    chk 421 (let! v16 := deref v15 in Ok (SeaSurfaceGroup_isValid v16)) (
    step 423 ((SeaSurfaceGroup_parse "W///S/" RP_METAR md_default)) (fun v17 => 
    chk 424 (Ok (has_value v17)) (
    chk 425 (let! v18 := deref v17 in Ok (SeaSurfaceGroup_isValid v18)) (
    None))))))))))))))))))))))))))).

Example tests_seasurfacegroup_pass : failures
  [("SeaSurfaceGroup_parseStateOfSeaSurface", t_SeaSurfaceGroup_parseStateOfSeaSurface);
   ("SeaSurfaceGroup_parseStateOfSeaSurfaceTemperatureNotReported", t_SeaSurfaceGroup_parseStateOfSeaSurfaceTemperatureNotReported);
   ("SeaSurfaceGroup_parseStateOfSeaSurfaceStateNotReported", t_SeaSurfaceGroup_parseStateOfSeaSurfaceStateNotReported);
   ("SeaSurfaceGroup_parseStateOfSeaSurfaceTemperatureAndStateNotReported", t_SeaSurfaceGroup_parseStateOfSeaSurfaceTemperatureAndStateNotReported);
   ("SeaSurfaceGroup_parseStateOfSeaSurfaceWrongReportPart", t_SeaSurfaceGroup_parseStateOfSeaSurfaceWrongReportPart);
   ("SeaSurfaceGroup_parseStateOfSeaSurfaceWrongFormat", t_SeaSurfaceGroup_parseStateOfSeaSurfaceWrongFormat);
   ("SeaSurfaceGroup_parseWaveHeightOneDigit", t_SeaSurfaceGroup_parseWaveHeightOneDigit);
   ("SeaSurfaceGroup_parseWaveHeightTwoDigits", t_SeaSurfaceGroup_parseWaveHeightTwoDigits);
   ("SeaSurfaceGroup_parseWaveHeightThreeDigits", t_SeaSurfaceGroup_parseWaveHeightThreeDigits);
   ("SeaSurfaceGroup_parseWaveHeightTemperatureNotReported", t_SeaSurfaceGroup_parseWaveHeightTemperatureNotReported);
   ("SeaSurfaceGroup_parseWaveHeightWaveHeightNotReported", t_SeaSurfaceGroup_parseWaveHeightWaveHeightNotReported);
   ("SeaSurfaceGroup_parseWaveHeightTemperatureAndWaveHeightNotReported", t_SeaSurfaceGroup_parseWaveHeightTemperatureAndWaveHeightNotReported);
   ("SeaSurfaceGroup_parseWaveHeightWrongReportPart", t_SeaSurfaceGroup_parseWaveHeightWrongReportPart);
   ("SeaSurfaceGroup_parseWaveHeightWrongFormat", t_SeaSurfaceGroup_parseWaveHeightWrongFormat);
   ("SeaSurfaceGroup_append", t_SeaSurfaceGroup_append);
   ("SeaSurfaceGroup_isValid", t_SeaSurfaceGroup_isValid)] = [].
Proof. vm_compute. reflexivity. Qed.
