(** Generated by tools/gen_tests.py from /repo/test/test_miscgroup.cpp: the project's own unit tests, run
    against the model. These are tests of the model's fidelity, not properties. *)

From Verif Require Import Prim Regex Float Values Weather Groups1 Groups2 Groups3 Groups4 Parser TestLib.
Local Open Scope string_scope.
Local Open Scope bool_scope.

Definition t_MiscGroup_parseSunshineDuration : option N :=
    step 21 ((MiscGroup_parse "98096" RP_RMK md_default)) (fun v1 => 
    chk 22 (Ok (has_value v1)) (
    chk 23 (let! v2 := deref v1 in Ok (MsType_beq (ms_type v2) Ms_SUNSHINE_DURATION_MINUTES)) (
    chk 24 (let! v3 := deref v1 in Ok (has_value (ms_data v3))) (
    chk 25 (let! v4 := deref v1 in let! v5 := deref (ms_data v4) in Ok (near v5 (dlit (96) 1) (dlit (1) 2))) (
    step 27 ((MiscGroup_parse "98000" RP_RMK md_default)) (fun v6 => 
    chk 28 (Ok (has_value v6)) (
    chk 29 (let! v7 := deref v6 in Ok (MsType_beq (ms_type v7) Ms_SUNSHINE_DURATION_MINUTES)) (
    chk 30 (let! v8 := deref v1 in Ok (has_value (ms_data v8))) (
    chk 31 (let! v9 := deref v6 in let! v10 := deref (ms_data v9) in Ok (near v10 (dlit (0) 1) (dlit (1) 2))) (
    None)))))))))).

Definition t_MiscGroup_parseSunshineDurationWrongReportPart : option N :=
    chk 35 (let! v1 := (MiscGroup_parse "98096" RP_UNKNOWN md_default) in Ok (negb (has_value v1))) (
    chk 36 (let! v2 := (MiscGroup_parse "98096" RP_HEADER md_default) in Ok (negb (has_value v2))) (
    chk 37 (let! v3 := (MiscGroup_parse "98096" RP_METAR md_default) in Ok (negb (has_value v3))) (
    chk 38 (let! v4 := (MiscGroup_parse "98096" RP_TAF md_default) in Ok (negb (has_value v4))) (
    None)))).

Definition t_MiscGroup_parseSunshineDurationWrongFormat : option N :=
    chk 42 (let! v1 := (MiscGroup_parse "98" RP_RMK md_default) in Ok (negb (has_value v1))) (
    chk 43 (let! v2 := (MiscGroup_parse "98///" RP_RMK md_default) in Ok (negb (has_value v2))) (
    chk 44 (let! v3 := (MiscGroup_parse "970096" RP_RMK md_default) in Ok (negb (has_value v3))) (
    chk 45 (let! v4 := (MiscGroup_parse "990096" RP_RMK md_default) in Ok (negb (has_value v4))) (
    chk 46 (let! v5 := (MiscGroup_parse "1000096" RP_RMK md_default) in Ok (negb (has_value v5))) (
    chk 47 (let! v6 := (MiscGroup_parse "90096" RP_RMK md_default) in Ok (negb (has_value v6))) (
    chk 48 (let! v7 := (MiscGroup_parse "9800096" RP_RMK md_default) in Ok (negb (has_value v7))) (
    chk 49 (let! v8 := (MiscGroup_parse "9A0096" RP_RMK md_default) in Ok (negb (has_value v8))) (
    chk 50 (let! v9 := (MiscGroup_parse "98A096" RP_RMK md_default) in Ok (negb (has_value v9))) (
    chk 51 (let! v10 := (MiscGroup_parse "98000A" RP_RMK md_default) in Ok (negb (has_value v10))) (
    chk 52 (let! v11 := (MiscGroup_parse "18096" RP_RMK md_default) in Ok (negb (has_value v11))) (
    None))))))))))).

Definition t_MiscGroup_parseCorrectedObservation : option N :=
    step 62 ((MiscGroup_parse "CCA" RP_METAR md_default)) (fun v1 => 
    chk 63 (Ok (has_value v1)) (
    chk 64 (let! v2 := deref v1 in Ok (MsType_beq (ms_type v2) Ms_CORRECTED_WEATHER_OBSERVATION)) (
    chk 65 (let! v3 := deref v1 in Ok (has_value (ms_data v3))) (
    None)))).

Definition t_MiscGroup_parseCorrectedObservationWrongReportPart : option N :=
    chk 76 (let! v1 := (MiscGroup_parse "CCA" RP_UNKNOWN md_default) in Ok (negb (has_value v1))) (
    chk 77 (let! v2 := (MiscGroup_parse "CCA" RP_HEADER md_default) in Ok (negb (has_value v2))) (
    chk 78 (let! v3 := (MiscGroup_parse "CCA" RP_TAF md_default) in Ok (negb (has_value v3))) (
    chk 79 (let! v4 := (MiscGroup_parse "CCA" RP_RMK md_default) in Ok (negb (has_value v4))) (
    None)))).

Definition t_MiscGroup_parseCorrectedObservationDurationWrongFormat : option N :=
    chk 83 (let! v1 := (MiscGroup_parse "CC" RP_METAR md_default) in Ok (negb (has_value v1))) (
    chk 84 (let! v2 := (MiscGroup_parse "CC/" RP_METAR md_default) in Ok (negb (has_value v2))) (
    chk 85 (let! v3 := (MiscGroup_parse "CC0" RP_METAR md_default) in Ok (negb (has_value v3))) (
    chk 86 (let! v4 := (MiscGroup_parse "CC-" RP_METAR md_default) in Ok (negb (has_value v4))) (
    chk 87 (let! v5 := (MiscGroup_parse "CCAA" RP_METAR md_default) in Ok (negb (has_value v5))) (
    chk 88 (let! v6 := (MiscGroup_parse "CA" RP_METAR md_default) in Ok (negb (has_value v6))) (
    chk 89 (let! v7 := (MiscGroup_parse "XCA" RP_METAR md_default) in Ok (negb (has_value v7))) (
    chk 90 (let! v8 := (MiscGroup_parse "CXA" RP_METAR md_default) in Ok (negb (has_value v8))) (
    None)))))))).

Definition t_MiscGroup_parseDensityAlt : option N :=
    step 100 ((MiscGroup_parse "DENSITY" RP_RMK md_default)) (fun v1 => 
    chk 101 (Ok (has_value v1)) (
    step 102 (let! v2 := deref v1 in MiscGroup_append v2 "ALT" RP_RMK md_default) (fun p => let v3 := Some (fst p) in let v4 := snd p in 
    chk 102 (Ok (AppendResult_beq v4 APPENDED)) (
    step 103 (let! v5 := deref v3 in MiscGroup_append v5 "100FT" RP_RMK md_default) (fun p => let v6 := Some (fst p) in let v7 := snd p in 
    chk 103 (Ok (AppendResult_beq v7 APPENDED)) (
    chk 105 (let! v8 := deref v6 in Ok (MsType_beq (ms_type v8) Ms_DENSITY_ALTITUDE)) (
    chk 106 (let! v9 := deref v6 in Ok (has_value (ms_data v9))) (
    None)))))))).

Definition t_MiscGroup_parseDensityAltMisg : option N :=
    step 119 ((MiscGroup_parse "DENSITY" RP_RMK md_default)) (fun v1 => 
    chk 120 (Ok (has_value v1)) (
    step 121 (let! v2 := deref v1 in MiscGroup_append v2 "ALT" RP_RMK md_default) (fun p => let v3 := Some (fst p) in let v4 := snd p in 
    chk 121 (Ok (AppendResult_beq v4 APPENDED)) (
    step 122 (let! v5 := deref v3 in MiscGroup_append v5 "MISG" RP_RMK md_default) (fun p => let v6 := Some (fst p) in let v7 := snd p in 
    chk 122 (Ok (AppendResult_beq v7 APPENDED)) (
    chk 124 (let! v8 := deref v6 in Ok (MsType_beq (ms_type v8) Ms_DENSITY_ALTITUDE)) (
    chk 125 (let! v9 := deref v6 in Ok (negb (has_value (ms_data v9)))) (
    None)))))))).

Definition t_MiscGroup_parseDensityWrongReportPart : option N :=
    chk 129 (let! v1 := (MiscGroup_parse "DENSITY" RP_UNKNOWN md_default) in Ok (negb (has_value v1))) (
    chk 130 (let! v2 := (MiscGroup_parse "DENSITY" RP_HEADER md_default) in Ok (negb (has_value v2))) (
    chk 131 (let! v3 := (MiscGroup_parse "DENSITY" RP_METAR md_default) in Ok (negb (has_value v3))) (
    chk 132 (let! v4 := (MiscGroup_parse "DENSITY" RP_TAF md_default) in Ok (negb (has_value v4))) (
    None)))).

Definition t_MiscGroup_parseDensityAltWrongFormat : option N :=
    chk 139 (let! v1 := (MiscGroup_parse "ALT" RP_UNKNOWN md_default) in Ok (negb (has_value v1))) (
    chk 140 (let! v2 := (MiscGroup_parse "ALT" RP_HEADER md_default) in Ok (negb (has_value v2))) (
    chk 141 (let! v3 := (MiscGroup_parse "ALT" RP_METAR md_default) in Ok (negb (has_value v3))) (
    chk 142 (let! v4 := (MiscGroup_parse "ALT" RP_TAF md_default) in Ok (negb (has_value v4))) (
    chk 143 (let! v5 := (MiscGroup_parse "ALT" RP_RMK md_default) in Ok (negb (has_value v5))) (
    chk 145 (let! v6 := (MiscGroup_parse "3200FT" RP_UNKNOWN md_default) in Ok (negb (has_value v6))) (
    chk 146 (let! v7 := (MiscGroup_parse "3200FT" RP_HEADER md_default) in Ok (negb (has_value v7))) (
    chk 147 (let! v8 := (MiscGroup_parse "3200FT" RP_METAR md_default) in Ok (negb (has_value v8))) (
    chk 148 (let! v9 := (MiscGroup_parse "3200FT" RP_TAF md_default) in Ok (negb (has_value v9))) (
    chk 149 (let! v10 := (MiscGroup_parse "3200FT" RP_RMK md_default) in Ok (negb (has_value v10))) (
    None)))))))))).

Definition t_MiscGroup_parseDensityAppendOther : option N :=
    step 153 ((MiscGroup_parse "DENSITY" RP_RMK md_default)) (fun v1 => 
    chk 154 (Ok (has_value v1)) (
    step 155 (let! v2 := deref v1 in MiscGroup_append v2 "100FT" RP_RMK md_default) (fun p => let v3 := Some (fst p) in let v4 := snd p in 
    chk 155 (Ok (AppendResult_beq v4 GROUP_INVALIDATED)) (
    step 157 ((MiscGroup_parse "DENSITY" RP_RMK md_default)) (fun v5 => 
    chk 158 (Ok (has_value v5)) (
    step 159 (let! v6 := deref v5 in MiscGroup_append v6 "4200FT" RP_RMK md_default) (fun p => let v7 := Some (fst p) in let v8 := snd p in 
    chk 159 (Ok (AppendResult_beq v8 GROUP_INVALIDATED)) (
    step 161 ((MiscGroup_parse "DENSITY" RP_RMK md_default)) (fun v9 => 
    chk 162 (Ok (has_value v9)) (
    step 163 (let! v10 := deref v9 in MiscGroup_append v10 "4200" RP_RMK md_default) (fun p => let v11 := Some (fst p) in let v12 := snd p in 
    chk 163 (Ok (AppendResult_beq v12 GROUP_INVALIDATED)) (
    step 165 ((MiscGroup_parse "DENSITY" RP_RMK md_default)) (fun v13 => 
    chk 166 (Ok (has_value v13)) (
    step 167 (let! v14 := deref v13 in MiscGroup_append v14 "A" RP_RMK md_default) (fun p => let v15 := Some (fst p) in let v16 := snd p in 
    chk 167 (Ok (AppendResult_beq v16 GROUP_INVALIDATED)) (
    step 169 ((MiscGroup_parse "DENSITY" RP_RMK md_default)) (fun v17 => 
    chk 170 (Ok (has_value v17)) (
    step 171 (let! v18 := deref v17 in MiscGroup_append v18 "FT" RP_RMK md_default) (fun p => let v19 := Some (fst p) in let v20 := snd p in 
    chk 171 (Ok (AppendResult_beq v20 GROUP_INVALIDATED)) (
    step 173 ((MiscGroup_parse "DENSITY" RP_RMK md_default)) (fun v21 => 
    chk 174 (Ok (has_value v21)) (
    step 175 (let! v22 := deref v21 in MiscGroup_append v22 "" RP_RMK md_default) (fun p => let v23 := Some (fst p) in let v24 := snd p in 
    chk 175 (Ok (AppendResult_beq v24 GROUP_INVALIDATED)) (
    None)))))))))))))))))))))))).

Definition t_MiscGroup_parseDensityAltAppendOther : option N :=
    step 179 ((MiscGroup_parse "DENSITY" RP_RMK md_default)) (fun v1 => 
    chk 180 (Ok (has_value v1)) (
    step 181 (let! v2 := deref v1 in MiscGroup_append v2 "ALT" RP_RMK md_default) (fun p => let v3 := Some (fst p) in let v4 := snd p in 
    chk 181 (Ok (AppendResult_beq v4 APPENDED)) (
    step 182 (let! v5 := deref v3 in MiscGroup_append v5 "4200" RP_RMK md_default) (fun p => let v6 := Some (fst p) in let v7 := snd p in 
    chk 182 (Ok (AppendResult_beq v7 GROUP_INVALIDATED)) (
    step 184 ((MiscGroup_parse "DENSITY" RP_RMK md_default)) (fun v8 => 
    chk 185 (Ok (has_value v8)) (
    step 186 (let! v9 := deref v8 in MiscGroup_append v9 "ALT" RP_RMK md_default) (fun p => let v10 := Some (fst p) in let v11 := snd p in 
    chk 186 (Ok (AppendResult_beq v11 APPENDED)) (
    step 187 (let! v12 := deref v10 in MiscGroup_append v12 "A" RP_RMK md_default) (fun p => let v13 := Some (fst p) in let v14 := snd p in 
    chk 187 (Ok (AppendResult_beq v14 GROUP_INVALIDATED)) (
    step 189 ((MiscGroup_parse "DENSITY" RP_RMK md_default)) (fun v15 => 
    chk 190 (Ok (has_value v15)) (
    step 191 (let! v16 := deref v15 in MiscGroup_append v16 "ALT" RP_RMK md_default) (fun p => let v17 := Some (fst p) in let v18 := snd p in 
    chk 191 (Ok (AppendResult_beq v18 APPENDED)) (
    step 192 (let! v19 := deref v17 in MiscGroup_append v19 "FT" RP_RMK md_default) (fun p => let v20 := Some (fst p) in let v21 := snd p in 
    chk 192 (Ok (AppendResult_beq v21 GROUP_INVALIDATED)) (
    step 194 ((MiscGroup_parse "DENSITY" RP_RMK md_default)) (fun v22 => 
    chk 195 (Ok (has_value v22)) (
    step 196 (let! v23 := deref v22 in MiscGroup_append v23 "ALT" RP_RMK md_default) (fun p => let v24 := Some (fst p) in let v25 := snd p in 
    chk 196 (Ok (AppendResult_beq v25 APPENDED)) (
    step 197 (let! v26 := deref v24 in MiscGroup_append v26 "AFT" RP_RMK md_default) (fun p => let v27 := Some (fst p) in let v28 := snd p in 
    chk 197 (Ok (AppendResult_beq v28 GROUP_INVALIDATED)) (
    step 199 ((MiscGroup_parse "DENSITY" RP_RMK md_default)) (fun v29 => 
    chk 200 (Ok (has_value v29)) (
    step 201 (let! v30 := deref v29 in MiscGroup_append v30 "ALT" RP_RMK md_default) (fun p => let v31 := Some (fst p) in let v32 := snd p in 
    chk 201 (Ok (AppendResult_beq v32 APPENDED)) (
    step 202 (let! v33 := deref v31 in MiscGroup_append v33 "AFT" RP_RMK md_default) (fun p => let v34 := Some (fst p) in let v35 := snd p in 
    chk 202 (Ok (AppendResult_beq v35 GROUP_INVALIDATED)) (
    None)))))))))))))))))))))))))))))).

Definition t_MiscGroup_parseGr : option N :=
    step 212 ((MiscGroup_parse "GR" RP_RMK md_default)) (fun v1 => 
    chk 213 (Ok (has_value v1)) (
    step 214 (let! v2 := deref v1 in MiscGroup_append v2 "1" RP_RMK md_default) (fun p => let v3 := Some (fst p) in let v4 := snd p in 
    chk 214 (Ok (AppendResult_beq v4 APPENDED)) (
    step 215 (let! v5 := deref v3 in MiscGroup_append v5 "3/4" RP_RMK md_default) (fun p => let v6 := Some (fst p) in let v7 := snd p in 
    chk 215 (Ok (AppendResult_beq v7 APPENDED)) (
    chk 217 (let! v8 := deref v6 in Ok (MsType_beq (ms_type v8) Ms_HAILSTONE_SIZE)) (
    chk 218 (let! v9 := deref v6 in Ok (has_value (ms_data v9))) (
    chk 219 (let! v10 := deref v6 in let! v11 := deref (ms_data v10) in Ok (flt_eqb v11 (dlit (7) 4))) (
    step 221 ((MiscGroup_parse "GR" RP_RMK md_default)) (fun v12 => 
    chk 222 (Ok (has_value v12)) (
    step 223 (let! v13 := deref v12 in MiscGroup_append v13 "1/2" RP_RMK md_default) (fun p => let v14 := Some (fst p) in let v15 := snd p in 
    chk 223 (Ok (AppendResult_beq v15 APPENDED)) (
    chk 224 (let! v16 := deref v14 in Ok (MsType_beq (ms_type v16) Ms_HAILSTONE_SIZE)) (
    chk 225 (let! v17 := deref v14 in Ok (has_value (ms_data v17))) (
    chk 226 (let! v18 := deref v14 in let! v19 := deref (ms_data v18) in Ok (flt_eqb v19 (dlit (1) 2))) (
    step 228 ((MiscGroup_parse "GR" RP_RMK md_default)) (fun v20 => 
    chk 229 (Ok (has_value v20)) (
    step 230 (let! v21 := deref v20 in MiscGroup_append v21 "1/4" RP_RMK md_default) (fun p => let v22 := Some (fst p) in let v23 := snd p in 
    chk 230 (Ok (AppendResult_beq v23 APPENDED)) (
    chk 231 (let! v24 := deref v22 in Ok (MsType_beq (ms_type v24) Ms_HAILSTONE_SIZE)) (
    chk 232 (let! v25 := deref v22 in Ok (has_value (ms_data v25))) (
    chk 233 (let! v26 := deref v22 in let! v27 := deref (ms_data v26) in Ok (flt_eqb v27 (dlit (1) 4))) (
    step 235 ((MiscGroup_parse "GR" RP_RMK md_default)) (fun v28 => 
    chk 236 (Ok (has_value v28)) (
    step 237 (let! v29 := deref v28 in MiscGroup_append v29 "3/4" RP_RMK md_default) (fun p => let v30 := Some (fst p) in let v31 := snd p in 
    chk 237 (Ok (AppendResult_beq v31 APPENDED)) (
    chk 238 (let! v32 := deref v30 in Ok (MsType_beq (ms_type v32) Ms_HAILSTONE_SIZE)) (
    chk 239 (let! v33 := deref v30 in Ok (has_value (ms_data v33))) (
    chk 240 (let! v34 := deref v30 in let! v35 := deref (ms_data v34) in Ok (flt_eqb v35 (dlit (3) 4))) (
    None)))))))))))))))))))))))))))))).

Definition t_MiscGroup_parseGrWrongReportPart : option N :=
    chk 244 (let! v1 := (MiscGroup_parse "GR" RP_UNKNOWN md_default) in Ok (negb (has_value v1))) (
    chk 245 (let! v2 := (MiscGroup_parse "GR" RP_HEADER md_default) in Ok (negb (has_value v2))) (
    chk 246 (let! v3 := (MiscGroup_parse "GR" RP_METAR md_default) in Ok (negb (has_value v3))) (
    chk 247 (let! v4 := (MiscGroup_parse "GR" RP_TAF md_default) in Ok (negb (has_value v4))) (
    None)))).

Definition t_MiscGroup_parseGrWrongFormat : option N :=
    chk 254 (let! v1 := (MiscGroup_parse "1/4" RP_UNKNOWN md_default) in Ok (negb (has_value v1))) (
    chk 255 (let! v2 := (MiscGroup_parse "1/4" RP_HEADER md_default) in Ok (negb (has_value v2))) (
    chk 256 (let! v3 := (MiscGroup_parse "1/4" RP_METAR md_default) in Ok (negb (has_value v3))) (
    chk 257 (let! v4 := (MiscGroup_parse "1/4" RP_TAF md_default) in Ok (negb (has_value v4))) (
    chk 258 (let! v5 := (MiscGroup_parse "1/4" RP_RMK md_default) in Ok (negb (has_value v5))) (
    chk 260 (let! v6 := (MiscGroup_parse "1" RP_UNKNOWN md_default) in Ok (negb (has_value v6))) (
    chk 261 (let! v7 := (MiscGroup_parse "1" RP_HEADER md_default) in Ok (negb (has_value v7))) (
    chk 262 (let! v8 := (MiscGroup_parse "1" RP_METAR md_default) in Ok (negb (has_value v8))) (
    chk 263 (let! v9 := (MiscGroup_parse "1" RP_TAF md_default) in Ok (negb (has_value v9))) (
    chk 264 (let! v10 := (MiscGroup_parse "1" RP_RMK md_default) in Ok (negb (has_value v10))) (
    None)))))))))).

Definition t_MiscGroup_parseGrAppendOther : option N :=
    step 268 ((MiscGroup_parse "GR" RP_RMK md_default)) (fun v1 => 
    chk 269 (Ok (has_value v1)) (
    step 270 (let! v2 := deref v1 in MiscGroup_append v2 "10" RP_RMK md_default) (fun p => let v3 := Some (fst p) in let v4 := snd p in 
    chk 270 (Ok (AppendResult_beq v4 GROUP_INVALIDATED)) (
    step 272 ((MiscGroup_parse "GR" RP_RMK md_default)) (fun v5 => 
    chk 273 (Ok (has_value v5)) (
    step 274 (let! v6 := deref v5 in MiscGroup_append v6 "0" RP_RMK md_default) (fun p => let v7 := Some (fst p) in let v8 := snd p in 
    chk 274 (Ok (AppendResult_beq v8 GROUP_INVALIDATED)) (
    step 276 ((MiscGroup_parse "GR" RP_RMK md_default)) (fun v9 => 
    chk 277 (Ok (has_value v9)) (
    step 278 (let! v10 := deref v9 in MiscGroup_append v10 "GR" RP_RMK md_default) (fun p => let v11 := Some (fst p) in let v12 := snd p in 
    chk 278 (Ok (AppendResult_beq v12 GROUP_INVALIDATED)) (
    step 280 ((MiscGroup_parse "GR" RP_RMK md_default)) (fun v13 => 
    chk 281 (Ok (has_value v13)) (
    step 282 (let! v14 := deref v13 in MiscGroup_append v14 "A" RP_RMK md_default) (fun p => let v15 := Some (fst p) in let v16 := snd p in 
    chk 282 (Ok (AppendResult_beq v16 GROUP_INVALIDATED)) (
    step 284 ((MiscGroup_parse "GR" RP_RMK md_default)) (fun v17 => 
    chk 285 (Ok (has_value v17)) (
    step 286 (let! v18 := deref v17 in MiscGroup_append v18 "1000FT" RP_RMK md_default) (fun p => let v19 := Some (fst p) in let v20 := snd p in 
    chk 286 (Ok (AppendResult_beq v20 GROUP_INVALIDATED)) (
    step 288 ((MiscGroup_parse "GR" RP_RMK md_default)) (fun v21 => 
    chk 289 (Ok (has_value v21)) (
    step 290 (let! v22 := deref v21 in MiscGroup_append v22 "1/3" RP_RMK md_default) (fun p => let v23 := Some (fst p) in let v24 := snd p in 
    chk 290 (Ok (AppendResult_beq v24 GROUP_INVALIDATED)) (
    step 292 ((MiscGroup_parse "GR" RP_RMK md_default)) (fun v25 => 
    chk 293 (Ok (has_value v25)) (
    step 294 (let! v26 := deref v25 in MiscGroup_append v26 "1/5" RP_RMK md_default) (fun p => let v27 := Some (fst p) in let v28 := snd p in 
    chk 294 (Ok (AppendResult_beq v28 GROUP_INVALIDATED)) (
    step 296 ((MiscGroup_parse "GR" RP_RMK md_default)) (fun v29 => 
    chk 297 (Ok (has_value v29)) (
    step 298 (let! v30 := deref v29 in MiscGroup_append v30 "7/8" RP_RMK md_default) (fun p => let v31 := Some (fst p) in let v32 := snd p in 
    chk 298 (Ok (AppendResult_beq v32 GROUP_INVALIDATED)) (
    step 300 ((MiscGroup_parse "GR" RP_RMK md_default)) (fun v33 => 
    chk 301 (Ok (has_value v33)) (
    step 302 (let! v34 := deref v33 in MiscGroup_append v34 "11/16" RP_RMK md_default) (fun p => let v35 := Some (fst p) in let v36 := snd p in 
    chk 302 (Ok (AppendResult_beq v36 GROUP_INVALIDATED)) (
    step 304 ((MiscGroup_parse "GR" RP_RMK md_default)) (fun v37 => 
    chk 305 (Ok (has_value v37)) (
    step 306 (let! v38 := deref v37 in MiscGroup_append v38 "" RP_RMK md_default) (fun p => let v39 := Some (fst p) in let v40 := snd p in 
    chk 306 (Ok (AppendResult_beq v40 GROUP_INVALIDATED)) (
    None)))))))))))))))))))))))))))))))))))))))).

Definition t_MiscGroup_parseGrIntAppendOther : option N :=
    step 310 ((MiscGroup_parse "GR" RP_RMK md_default)) (fun v1 => 
    chk 311 (Ok (has_value v1)) (
    step 312 (let! v2 := deref v1 in MiscGroup_append v2 "1" RP_RMK md_default) (fun p => let v3 := Some (fst p) in let v4 := snd p in 
    chk 312 (Ok (AppendResult_beq v4 APPENDED)) (
    step 313 (let! v5 := deref v3 in MiscGroup_append v5 "10" RP_RMK md_default) (fun p => let v6 := Some (fst p) in let v7 := snd p in 
    chk 313 (Ok (AppendResult_beq v7 GROUP_INVALIDATED)) (
    step 315 ((MiscGroup_parse "GR" RP_RMK md_default)) (fun v8 => 
    chk 316 (Ok (has_value v8)) (
    step 317 (let! v9 := deref v8 in MiscGroup_append v9 "1" RP_RMK md_default) (fun p => let v10 := Some (fst p) in let v11 := snd p in 
    chk 317 (Ok (AppendResult_beq v11 APPENDED)) (
    step 318 (let! v12 := deref v10 in MiscGroup_append v12 "0" RP_RMK md_default) (fun p => let v13 := Some (fst p) in let v14 := snd p in 
    chk 318 (Ok (AppendResult_beq v14 GROUP_INVALIDATED)) (
    step 320 ((MiscGroup_parse "GR" RP_RMK md_default)) (fun v15 => 
    chk 321 (Ok (has_value v15)) (
    step 322 (let! v16 := deref v15 in MiscGroup_append v16 "1" RP_RMK md_default) (fun p => let v17 := Some (fst p) in let v18 := snd p in 
    chk 322 (Ok (AppendResult_beq v18 APPENDED)) (
    step 323 (let! v19 := deref v17 in MiscGroup_append v19 "GR" RP_RMK md_default) (fun p => let v20 := Some (fst p) in let v21 := snd p in 
    chk 323 (Ok (AppendResult_beq v21 GROUP_INVALIDATED)) (
    step 325 ((MiscGroup_parse "GR" RP_RMK md_default)) (fun v22 => 
    chk 326 (Ok (has_value v22)) (
    step 327 (let! v23 := deref v22 in MiscGroup_append v23 "1" RP_RMK md_default) (fun p => let v24 := Some (fst p) in let v25 := snd p in 
    chk 327 (Ok (AppendResult_beq v25 APPENDED)) (
    step 328 (let! v26 := deref v24 in MiscGroup_append v26 "A" RP_RMK md_default) (fun p => let v27 := Some (fst p) in let v28 := snd p in 
    chk 328 (Ok (AppendResult_beq v28 GROUP_INVALIDATED)) (
    step 330 ((MiscGroup_parse "GR" RP_RMK md_default)) (fun v29 => 
    chk 331 (Ok (has_value v29)) (
    step 332 (let! v30 := deref v29 in MiscGroup_append v30 "1" RP_RMK md_default) (fun p => let v31 := Some (fst p) in let v32 := snd p in 
    chk 332 (Ok (AppendResult_beq v32 APPENDED)) (
    step 333 (let! v33 := deref v31 in MiscGroup_append v33 "1000FT" RP_RMK md_default) (fun p => let v34 := Some (fst p) in let v35 := snd p in 
    chk 333 (Ok (AppendResult_beq v35 GROUP_INVALIDATED)) (
    step 335 ((MiscGroup_parse "GR" RP_RMK md_default)) (fun v36 => 
    chk 336 (Ok (has_value v36)) (
    step 337 (let! v37 := deref v36 in MiscGroup_append v37 "1" RP_RMK md_default) (fun p => let v38 := Some (fst p) in let v39 := snd p in 
    chk 337 (Ok (AppendResult_beq v39 APPENDED)) (
    step 338 (let! v40 := deref v38 in MiscGroup_append v40 "1/3" RP_RMK md_default) (fun p => let v41 := Some (fst p) in let v42 := snd p in 
    chk 338 (Ok (AppendResult_beq v42 GROUP_INVALIDATED)) (
    step 340 ((MiscGroup_parse "GR" RP_RMK md_default)) (fun v43 => 
    chk 341 (Ok (has_value v43)) (
    step 342 (let! v44 := deref v43 in MiscGroup_append v44 "1" RP_RMK md_default) (fun p => let v45 := Some (fst p) in let v46 := snd p in 
    chk 342 (Ok (AppendResult_beq v46 APPENDED)) (
    step 343 (let! v47 := deref v45 in MiscGroup_append v47 "1/5" RP_RMK md_default) (fun p => let v48 := Some (fst p) in let v49 := snd p in 
    chk 343 (Ok (AppendResult_beq v49 GROUP_INVALIDATED)) (
    step 345 ((MiscGroup_parse "GR" RP_RMK md_default)) (fun v50 => 
    chk 346 (Ok (has_value v50)) (
    step 347 (let! v51 := deref v50 in MiscGroup_append v51 "1" RP_RMK md_default) (fun p => let v52 := Some (fst p) in let v53 := snd p in 
    chk 347 (Ok (AppendResult_beq v53 APPENDED)) (
    step 348 (let! v54 := deref v52 in MiscGroup_append v54 "7/8" RP_RMK md_default) (fun p => let v55 := Some (fst p) in let v56 := snd p in 
    chk 348 (Ok (AppendResult_beq v56 GROUP_INVALIDATED)) (
    step 350 ((MiscGroup_parse "GR" RP_RMK md_default)) (fun v57 => 
    chk 351 (Ok (has_value v57)) (
    step 352 (let! v58 := deref v57 in MiscGroup_append v58 "1" RP_RMK md_default) (fun p => let v59 := Some (fst p) in let v60 := snd p in 
    chk 352 (Ok (AppendResult_beq v60 APPENDED)) (
    step 353 (let! v61 := deref v59 in MiscGroup_append v61 "11/16" RP_RMK md_default) (fun p => let v62 := Some (fst p) in let v63 := snd p in 
    chk 353 (Ok (AppendResult_beq v63 GROUP_INVALIDATED)) (
    step 355 ((MiscGroup_parse "GR" RP_RMK md_default)) (fun v64 => 
    chk 356 (Ok (has_value v64)) (
    step 357 (let! v65 := deref v64 in MiscGroup_append v65 "1" RP_RMK md_default) (fun p => let v66 := Some (fst p) in let v67 := snd p in 
    chk 357 (Ok (AppendResult_beq v67 APPENDED)) (
    step 358 (let! v68 := deref v66 in MiscGroup_append v68 "" RP_RMK md_default) (fun p => let v69 := Some (fst p) in let v70 := snd p in 
    chk 358 (Ok (AppendResult_beq v70 GROUP_INVALIDATED)) (
    None)))))))))))))))))))))))))))))))))))))))))))))))))))))))))))).

Definition t_MiscGroup_parseColourCodeBluePlus : option N :=
    step 368 ((MiscGroup_parse "BLU+" RP_METAR md_default)) (fun v1 => 
    chk 369 (Ok (has_value v1)) (
    chk 370 (let! v2 := deref v1 in Ok (MsType_beq (ms_type v2) Ms_COLOUR_CODE_BLUE_PLUS)) (
    chk 371 (let! v3 := deref v1 in Ok (negb (has_value (ms_data v3)))) (
    None)))).

Definition t_MiscGroup_parseColourCodeBlue : option N :=
    step 375 ((MiscGroup_parse "BLU" RP_METAR md_default)) (fun v1 => 
    chk 376 (Ok (has_value v1)) (
    chk 377 (let! v2 := deref v1 in Ok (MsType_beq (ms_type v2) Ms_COLOUR_CODE_BLUE)) (
    chk 378 (let! v3 := deref v1 in Ok (negb (has_value (ms_data v3)))) (
    None)))).

Definition t_MiscGroup_parseColourCodeWhite : option N :=
    step 382 ((MiscGroup_parse "WHT" RP_METAR md_default)) (fun v1 => 
    chk 383 (Ok (has_value v1)) (
    chk 384 (let! v2 := deref v1 in Ok (MsType_beq (ms_type v2) Ms_COLOUR_CODE_WHITE)) (
    chk 385 (let! v3 := deref v1 in Ok (negb (has_value (ms_data v3)))) (
    None)))).

Definition t_MiscGroup_parseColourCodeGreen : option N :=
    step 389 ((MiscGroup_parse "GRN" RP_METAR md_default)) (fun v1 => 
    chk 390 (Ok (has_value v1)) (
    chk 391 (let! v2 := deref v1 in Ok (MsType_beq (ms_type v2) Ms_COLOUR_CODE_GREEN)) (
    chk 392 (let! v3 := deref v1 in Ok (negb (has_value (ms_data v3)))) (
    None)))).

Definition t_MiscGroup_parseColourCodeYellow : option N :=
    step 396 ((MiscGroup_parse "YLO" RP_METAR md_default)) (fun v1 => 
    chk 397 (Ok (has_value v1)) (
    chk 398 (let! v2 := deref v1 in Ok (MsType_beq (ms_type v2) Ms_COLOUR_CODE_YELLOW)) (
    chk 399 (let! v3 := deref v1 in Ok (negb (has_value (ms_data v3)))) (
    None)))).

Definition t_MiscGroup_parseColourCodeYellow1 : option N :=
    step 403 ((MiscGroup_parse "YLO1" RP_METAR md_default)) (fun v1 => 
    chk 404 (Ok (has_value v1)) (
    chk 405 (let! v2 := deref v1 in Ok (MsType_beq (ms_type v2) Ms_COLOUR_CODE_YELLOW1)) (
    chk 406 (let! v3 := deref v1 in Ok (negb (has_value (ms_data v3)))) (
    None)))).

Definition t_MiscGroup_parseColourCodeYellow2 : option N :=
    step 410 ((MiscGroup_parse "YLO2" RP_METAR md_default)) (fun v1 => 
    chk 411 (Ok (has_value v1)) (
    chk 412 (let! v2 := deref v1 in Ok (MsType_beq (ms_type v2) Ms_COLOUR_CODE_YELLOW2)) (
    chk 413 (let! v3 := deref v1 in Ok (negb (has_value (ms_data v3)))) (
    None)))).

Definition t_MiscGroup_parseColourCodeAmber : option N :=
    step 417 ((MiscGroup_parse "AMB" RP_METAR md_default)) (fun v1 => 
    chk 418 (Ok (has_value v1)) (
    chk 419 (let! v2 := deref v1 in Ok (MsType_beq (ms_type v2) Ms_COLOUR_CODE_AMBER)) (
    chk 420 (let! v3 := deref v1 in Ok (negb (has_value (ms_data v3)))) (
    None)))).

Definition t_MiscGroup_parseColourCodeRed : option N :=
    step 424 ((MiscGroup_parse "RED" RP_METAR md_default)) (fun v1 => 
    chk 425 (Ok (has_value v1)) (
    chk 426 (let! v2 := deref v1 in Ok (MsType_beq (ms_type v2) Ms_COLOUR_CODE_RED)) (
    chk 427 (let! v3 := deref v1 in Ok (negb (has_value (ms_data v3)))) (
    None)))).

Definition t_MiscGroup_parseColourCodeBlackBluePlus : option N :=
    step 431 ((MiscGroup_parse "BLACKBLU+" RP_METAR md_default)) (fun v1 => 
    chk 432 (Ok (has_value v1)) (
    chk 433 (let! v2 := deref v1 in Ok (MsType_beq (ms_type v2) Ms_COLOUR_CODE_BLACKBLUE_PLUS)) (
    chk 434 (let! v3 := deref v1 in Ok (negb (has_value (ms_data v3)))) (
    None)))).

Definition t_MiscGroup_parseColourCodeBlackBlue : option N :=
    step 438 ((MiscGroup_parse "BLACKBLU" RP_METAR md_default)) (fun v1 => 
    chk 439 (Ok (has_value v1)) (
    chk 440 (let! v2 := deref v1 in Ok (MsType_beq (ms_type v2) Ms_COLOUR_CODE_BLACKBLUE)) (
    chk 441 (let! v3 := deref v1 in Ok (negb (has_value (ms_data v3)))) (
    None)))).

Definition t_MiscGroup_parseColourCodeBlackWhite : option N :=
    step 445 ((MiscGroup_parse "BLACKWHT" RP_METAR md_default)) (fun v1 => 
    chk 446 (Ok (has_value v1)) (
    chk 447 (let! v2 := deref v1 in Ok (MsType_beq (ms_type v2) Ms_COLOUR_CODE_BLACKWHITE)) (
    chk 448 (let! v3 := deref v1 in Ok (negb (has_value (ms_data v3)))) (
    None)))).

Definition t_MiscGroup_parseColourCodeBlackGreen : option N :=
    step 452 ((MiscGroup_parse "BLACKGRN" RP_METAR md_default)) (fun v1 => 
    chk 453 (Ok (has_value v1)) (
    chk 454 (let! v2 := deref v1 in Ok (MsType_beq (ms_type v2) Ms_COLOUR_CODE_BLACKGREEN)) (
    chk 455 (let! v3 := deref v1 in Ok (negb (has_value (ms_data v3)))) (
    None)))).

Definition t_MiscGroup_parseColourCodeBlackYellow : option N :=
    step 459 ((MiscGroup_parse "BLACKYLO" RP_METAR md_default)) (fun v1 => 
    chk 460 (Ok (has_value v1)) (
    chk 461 (let! v2 := deref v1 in Ok (MsType_beq (ms_type v2) Ms_COLOUR_CODE_BLACKYELLOW)) (
    chk 462 (let! v3 := deref v1 in Ok (negb (has_value (ms_data v3)))) (
    None)))).

Definition t_MiscGroup_parseColourCodeBlackYellow1 : option N :=
    step 466 ((MiscGroup_parse "BLACKYLO1" RP_METAR md_default)) (fun v1 => 
    chk 467 (Ok (has_value v1)) (
    chk 468 (let! v2 := deref v1 in Ok (MsType_beq (ms_type v2) Ms_COLOUR_CODE_BLACKYELLOW1)) (
    chk 469 (let! v3 := deref v1 in Ok (negb (has_value (ms_data v3)))) (
    None)))).

Definition t_MiscGroup_parseColourCodeBlackYellow2 : option N :=
    step 473 ((MiscGroup_parse "BLACKYLO2" RP_METAR md_default)) (fun v1 => 
    chk 474 (Ok (has_value v1)) (
    chk 475 (let! v2 := deref v1 in Ok (MsType_beq (ms_type v2) Ms_COLOUR_CODE_BLACKYELLOW2)) (
    chk 476 (let! v3 := deref v1 in Ok (negb (has_value (ms_data v3)))) (
    None)))).

Definition t_MiscGroup_parseColourCodeBlackAmber : option N :=
    step 480 ((MiscGroup_parse "BLACKAMB" RP_METAR md_default)) (fun v1 => 
    chk 481 (Ok (has_value v1)) (
    chk 482 (let! v2 := deref v1 in Ok (MsType_beq (ms_type v2) Ms_COLOUR_CODE_BLACKAMBER)) (
    chk 483 (let! v3 := deref v1 in Ok (negb (has_value (ms_data v3)))) (
    None)))).

Definition t_MiscGroup_parseColourCodeBlackRed : option N :=
    step 487 ((MiscGroup_parse "BLACKRED" RP_METAR md_default)) (fun v1 => 
    chk 488 (Ok (has_value v1)) (
    chk 489 (let! v2 := deref v1 in Ok (MsType_beq (ms_type v2) Ms_COLOUR_CODE_BLACKRED)) (
    chk 490 (let! v3 := deref v1 in Ok (negb (has_value (ms_data v3)))) (
    None)))).

Definition t_MiscGroup_parseCoulourCodeRmk : option N :=
    chk 494 (let! v1 := (MiscGroup_parse "BLU+" RP_RMK md_default) in Ok (has_value v1)) (
    chk 495 (let! v2 := (MiscGroup_parse "BLU" RP_RMK md_default) in Ok (has_value v2)) (
    chk 496 (let! v3 := (MiscGroup_parse "WHT" RP_RMK md_default) in Ok (has_value v3)) (
    chk 497 (let! v4 := (MiscGroup_parse "GRN" RP_RMK md_default) in Ok (has_value v4)) (
    chk 498 (let! v5 := (MiscGroup_parse "YLO" RP_RMK md_default) in Ok (has_value v5)) (
    chk 499 (let! v6 := (MiscGroup_parse "YLO1" RP_RMK md_default) in Ok (has_value v6)) (
    chk 500 (let! v7 := (MiscGroup_parse "YLO2" RP_RMK md_default) in Ok (has_value v7)) (
    chk 501 (let! v8 := (MiscGroup_parse "AMB" RP_RMK md_default) in Ok (has_value v8)) (
    chk 502 (let! v9 := (MiscGroup_parse "RED" RP_RMK md_default) in Ok (has_value v9)) (
    chk 503 (let! v10 := (MiscGroup_parse "BLACKBLU+" RP_RMK md_default) in Ok (has_value v10)) (
    chk 504 (let! v11 := (MiscGroup_parse "BLACKBLU" RP_RMK md_default) in Ok (has_value v11)) (
    chk 505 (let! v12 := (MiscGroup_parse "BLACKWHT" RP_RMK md_default) in Ok (has_value v12)) (
    chk 506 (let! v13 := (MiscGroup_parse "BLACKGRN" RP_RMK md_default) in Ok (has_value v13)) (
    chk 507 (let! v14 := (MiscGroup_parse "BLACKYLO" RP_RMK md_default) in Ok (has_value v14)) (
    chk 508 (let! v15 := (MiscGroup_parse "BLACKYLO1" RP_RMK md_default) in Ok (has_value v15)) (
    chk 509 (let! v16 := (MiscGroup_parse "BLACKYLO2" RP_RMK md_default) in Ok (has_value v16)) (
    chk 510 (let! v17 := (MiscGroup_parse "BLACKAMB" RP_RMK md_default) in Ok (has_value v17)) (
    chk 511 (let! v18 := (MiscGroup_parse "BLACKRED" RP_RMK md_default) in Ok (has_value v18)) (
    None)))))))))))))))))).

Definition t_MiscGroup_parseCoulourCodeWrongReportPart : option N :=
    chk 515 (let! v1 := (MiscGroup_parse "BLU" RP_UNKNOWN md_default) in Ok (negb (has_value v1))) (
    chk 516 (let! v2 := (MiscGroup_parse "BLU" RP_HEADER md_default) in Ok (negb (has_value v2))) (
    chk 517 (let! v3 := (MiscGroup_parse "BLU" RP_TAF md_default) in Ok (negb (has_value v3))) (
    None))).

Definition t_MiscGroup_parseColourCodeWrongFormat : option N :=
    chk 521 (let! v1 := (MiscGroup_parse "" RP_METAR md_default) in Ok (negb (has_value v1))) (
    chk 522 (let! v2 := (MiscGroup_parse "ZZZZZZ" RP_METAR md_default) in Ok (negb (has_value v2))) (
    chk 523 (let! v3 := (MiscGroup_parse "BLACK" RP_METAR md_default) in Ok (negb (has_value v3))) (
    chk 524 (let! v4 := (MiscGroup_parse "BLUBLACK" RP_METAR md_default) in Ok (negb (has_value v4))) (
    chk 525 (let! v5 := (MiscGroup_parse "BLUWHT" RP_METAR md_default) in Ok (negb (has_value v5))) (
    chk 526 (let! v6 := (MiscGroup_parse "BLUE" RP_METAR md_default) in Ok (negb (has_value v6))) (
    chk 527 (let! v7 := (MiscGroup_parse "BLLU" RP_METAR md_default) in Ok (negb (has_value v7))) (
    chk 528 (let! v8 := (MiscGroup_parse "BL" RP_METAR md_default) in Ok (negb (has_value v8))) (
    chk 529 (let! v9 := (MiscGroup_parse "BLACKBLUE" RP_METAR md_default) in Ok (negb (has_value v9))) (
    chk 530 (let! v10 := (MiscGroup_parse "BLACKBLLU" RP_METAR md_default) in Ok (negb (has_value v10))) (
    chk 532 (let! v11 := (MiscGroup_parse "WHT+" RP_METAR md_default) in Ok (negb (has_value v11))) (
    chk 533 (let! v12 := (MiscGroup_parse "GRN+" RP_METAR md_default) in Ok (negb (has_value v12))) (
    chk 534 (let! v13 := (MiscGroup_parse "YLO+" RP_METAR md_default) in Ok (negb (has_value v13))) (
    chk 535 (let! v14 := (MiscGroup_parse "YLO1+" RP_METAR md_default) in Ok (negb (has_value v14))) (
    chk 536 (let! v15 := (MiscGroup_parse "YLO2+" RP_METAR md_default) in Ok (negb (has_value v15))) (
    chk 537 (let! v16 := (MiscGroup_parse "AMB+" RP_METAR md_default) in Ok (negb (has_value v16))) (
    chk 538 (let! v17 := (MiscGroup_parse "RED+" RP_METAR md_default) in Ok (negb (has_value v17))) (
    None))))))))))))))))).

Definition t_MiscGroup_parseFroin : option N :=
    step 547 ((MiscGroup_parse "FROIN" RP_RMK md_default)) (fun v1 => 
    chk 548 (Ok (has_value v1)) (
    chk 549 (let! v2 := deref v1 in Ok (MsType_beq (ms_type v2) Ms_FROIN)) (
    chk 550 (let! v3 := deref v1 in Ok (negb (has_value (ms_data v3)))) (
    None)))).

Definition t_MiscGroup_parseFroinWrongReportPart : option N :=
    chk 554 (let! v1 := (MiscGroup_parse "FROIN" RP_UNKNOWN md_default) in Ok (negb (has_value v1))) (
    chk 555 (let! v2 := (MiscGroup_parse "FROIN" RP_HEADER md_default) in Ok (negb (has_value v2))) (
    chk 556 (let! v3 := (MiscGroup_parse "FROIN" RP_TAF md_default) in Ok (negb (has_value v3))) (
    chk 557 (let! v4 := (MiscGroup_parse "FROIN" RP_METAR md_default) in Ok (negb (has_value v4))) (
    None)))).

Definition t_MiscGroup_parseIssuerIdFn : option N :=
    step 566 ((MiscGroup_parse "FN20002" RP_TAF md_default)) (fun v1 => 
    chk 567 (Ok (has_value v1)) (
    chk 568 (let! v2 := deref v1 in Ok (MsType_beq (ms_type v2) Ms_ISSUER_ID_FN)) (
    chk 569 (let! v3 := deref v1 in Ok (has_value (ms_data v3))) (
    chk 570 (let! v4 := deref v1 in let! v5 := deref (ms_data v4) in Ok (near v5 (dlit (20002) 1) (dlit (1) 2))) (
    None))))).

Definition t_MiscGroup_parseIssuerIdFs : option N :=
    step 574 ((MiscGroup_parse "FS30122" RP_TAF md_default)) (fun v1 => 
    chk 575 (Ok (has_value v1)) (
    chk 576 (let! v2 := deref v1 in Ok (MsType_beq (ms_type v2) Ms_ISSUER_ID_FS)) (
    chk 577 (let! v3 := deref v1 in Ok (has_value (ms_data v3))) (
    chk 578 (let! v4 := deref v1 in let! v5 := deref (ms_data v4) in Ok (near v5 (dlit (30122) 1) (dlit (1) 2))) (
    None))))).

Definition t_MiscGroup_parseIssuerIdWrongReportPart : option N :=
    chk 582 (let! v1 := (MiscGroup_parse "FN20002" RP_UNKNOWN md_default) in Ok (negb (has_value v1))) (
    chk 583 (let! v2 := (MiscGroup_parse "FN20002" RP_HEADER md_default) in Ok (negb (has_value v2))) (
    chk 584 (let! v3 := (MiscGroup_parse "FN20002" RP_RMK md_default) in Ok (negb (has_value v3))) (
    chk 585 (let! v4 := (MiscGroup_parse "FN20002" RP_METAR md_default) in Ok (negb (has_value v4))) (
    chk 587 (let! v5 := (MiscGroup_parse "FS30122" RP_UNKNOWN md_default) in Ok (negb (has_value v5))) (
    chk 588 (let! v6 := (MiscGroup_parse "FS30122" RP_HEADER md_default) in Ok (negb (has_value v6))) (
    chk 589 (let! v7 := (MiscGroup_parse "FS30122" RP_RMK md_default) in Ok (negb (has_value v7))) (
    chk 590 (let! v8 := (MiscGroup_parse "FS30122" RP_METAR md_default) in Ok (negb (has_value v8))) (
    None)))))))).

Definition t_MiscGroup_appendToCompleteGroups : option N :=
    step 613 ((MiscGroup_parse "98096" RP_RMK md_default)) (fun v1 => 
    chk 614 (Ok (has_value v1)) (
    step 616 ((MiscGroup_parse "CCA" RP_METAR md_default)) (fun v2 => 
    chk 617 (Ok (has_value v2)) (
    step 619 ((MiscGroup_parse "DENSITY" RP_RMK md_default)) (fun v3 => 
    chk 620 (Ok (has_value v3)) (
    step 621 (let! v4 := deref v3 in MiscGroup_append v4 "ALT" RP_RMK md_default) (fun p => let v5 := Some (fst p) in let v6 := snd p in 
    chk 621 (Ok (AppendResult_beq v6 APPENDED)) (
    step 623 (let! v7 := deref v5 in MiscGroup_append v7 "1700FT" RP_RMK md_default) (fun p => let v8 := Some (fst p) in let v9 := snd p in 
    chk 623 (Ok (AppendResult_beq v9 APPENDED)) (
    step 626 ((MiscGroup_parse "GR" RP_RMK md_default)) (fun v10 => 
    chk 627 (Ok (has_value v10)) (
    step 628 (let! v11 := deref v10 in MiscGroup_append v11 "1" RP_RMK md_default) (fun p => let v12 := Some (fst p) in let v13 := snd p in 
    chk 628 (Ok (AppendResult_beq v13 APPENDED)) (
    step 630 (let! v14 := deref v12 in MiscGroup_append v14 "1/4" RP_RMK md_default) (fun p => let v15 := Some (fst p) in let v16 := snd p in 
    chk 630 (Ok (AppendResult_beq v16 APPENDED)) (
    step 633 ((MiscGroup_parse "GR" RP_RMK md_default)) (fun v17 => 
    chk 634 (Ok (has_value v17)) (
    step 635 (let! v18 := deref v17 in MiscGroup_append v18 "1/4" RP_RMK md_default) (fun p => let v19 := Some (fst p) in let v20 := snd p in 
    chk 635 (Ok (AppendResult_beq v20 APPENDED)) (
    step 638 ((MiscGroup_parse "AMB" RP_METAR md_default)) (fun v21 => 
    chk 639 (Ok (has_value v21)) (
    step 641 ((MiscGroup_parse "BLACKAMB" RP_METAR md_default)) (fun v22 => 
    chk 642 (Ok (has_value v22)) (
    step 644 ((MiscGroup_parse "FROIN" RP_RMK md_default)) (fun v23 => 
    chk 645 (Ok (has_value v23)) (
    step 647 ((MiscGroup_parse "FS49728" RP_TAF md_default)) (fun v24 => 
    chk 648 (Ok (has_value v24)) (
    step 650 ((MiscGroup_parse "FN07053" RP_TAF md_default)) (fun v25 => 
    chk 651 (Ok (has_value v25)) (
    step 653 (let! v26 := deref v1 in MiscGroup_append v26 "98096" RP_RMK md_default) (fun p => let v27 := Some (fst p) in let v28 := snd p in 
    chk 653 (Ok (AppendResult_beq v28 NOT_APPENDED)) (
    step 655 (let! v29 := deref v27 in MiscGroup_append v29 "CCA" RP_RMK md_default) (fun p => let v30 := Some (fst p) in let v31 := snd p in 
    chk 655 (Ok (AppendResult_beq v31 NOT_APPENDED)) (
    step 657 (let! v32 := deref v30 in MiscGroup_append v32 "DENSITY" RP_RMK md_default) (fun p => let v33 := Some (fst p) in let v34 := snd p in 
    chk 657 (Ok (AppendResult_beq v34 NOT_APPENDED)) (
    step 659 (let! v35 := deref v33 in MiscGroup_append v35 "ALT" RP_RMK md_default) (fun p => let v36 := Some (fst p) in let v37 := snd p in 
    chk 659 (Ok (AppendResult_beq v37 NOT_APPENDED)) (
    step 661 (let! v38 := deref v36 in MiscGroup_append v38 "1700FT" RP_RMK md_default) (fun p => let v39 := Some (fst p) in let v40 := snd p in 
    chk 661 (Ok (AppendResult_beq v40 NOT_APPENDED)) (
    step 663 (let! v41 := deref v39 in MiscGroup_append v41 "GR" RP_RMK md_default) (fun p => let v42 := Some (fst p) in let v43 := snd p in 
    chk 663 (Ok (AppendResult_beq v43 NOT_APPENDED)) (
    step 665 (let! v44 := deref v42 in MiscGroup_append v44 "1" RP_RMK md_default) (fun p => let v45 := Some (fst p) in let v46 := snd p in 
    chk 665 (Ok (AppendResult_beq v46 NOT_APPENDED)) (
    step 667 (let! v47 := deref v45 in MiscGroup_append v47 "1/4" RP_RMK md_default) (fun p => let v48 := Some (fst p) in let v49 := snd p in 
    chk 667 (Ok (AppendResult_beq v49 NOT_APPENDED)) (
    step 669 (let! v50 := deref v48 in MiscGroup_append v50 "AMB" RP_RMK md_default) (fun p => let v51 := Some (fst p) in let v52 := snd p in 
    chk 669 (Ok (AppendResult_beq v52 NOT_APPENDED)) (
    step 671 (let! v53 := deref v51 in MiscGroup_append v53 "BLACKAMB" RP_RMK md_default) (fun p => let v54 := Some (fst p) in let v55 := snd p in 
    chk 671 (Ok (AppendResult_beq v55 NOT_APPENDED)) (
    step 673 (let! v56 := deref v54 in MiscGroup_append v56 "FROIN" RP_RMK md_default) (fun p => let v57 := Some (fst p) in let v58 := snd p in 
    chk 673 (Ok (AppendResult_beq v58 NOT_APPENDED)) (
    step 675 (let! v59 := deref v57 in MiscGroup_append v59 "FS49728" RP_RMK md_default) (fun p => let v60 := Some (fst p) in let v61 := snd p in 
    chk 675 (Ok (AppendResult_beq v61 NOT_APPENDED)) (
    step 677 (let! v62 := deref v60 in MiscGroup_append v62 "FN07053" RP_RMK md_default) (fun p => let v63 := Some (fst p) in let v64 := snd p in 
    chk 677 (Ok (AppendResult_beq v64 NOT_APPENDED)) (
    step 679 (let! v65 := deref v63 in MiscGroup_append v65 "RMK" RP_RMK md_default) (fun p => let v66 := Some (fst p) in let v67 := snd p in 
    chk 679 (Ok (AppendResult_beq v67 NOT_APPENDED)) (
    step 681 (let! v68 := deref v66 in MiscGroup_append v68 "TEST" RP_RMK md_default) (fun p => let v69 := Some (fst p) in let v70 := snd p in 
    chk 681 (Ok (AppendResult_beq v70 NOT_APPENDED)) (
    step 684 (let! v71 := deref v2 in MiscGroup_append v71 "98096" RP_METAR md_default) (fun p => let v72 := Some (fst p) in let v73 := snd p in 
    chk 684 (Ok (AppendResult_beq v73 NOT_APPENDED)) (
    step 686 (let! v74 := deref v72 in MiscGroup_append v74 "CCA" RP_METAR md_default) (fun p => let v75 := Some (fst p) in let v76 := snd p in 
    chk 686 (Ok (AppendResult_beq v76 NOT_APPENDED)) (
    step 688 (let! v77 := deref v75 in MiscGroup_append v77 "DENSITY" RP_METAR md_default) (fun p => let v78 := Some (fst p) in let v79 := snd p in 
    chk 688 (Ok (AppendResult_beq v79 NOT_APPENDED)) (
    step 690 (let! v80 := deref v78 in MiscGroup_append v80 "ALT" RP_METAR md_default) (fun p => let v81 := Some (fst p) in let v82 := snd p in 
    chk 690 (Ok (AppendResult_beq v82 NOT_APPENDED)) (
    step 692 (let! v83 := deref v81 in MiscGroup_append v83 "1700FT" RP_METAR md_default) (fun p => let v84 := Some (fst p) in let v85 := snd p in 
    chk 692 (Ok (AppendResult_beq v85 NOT_APPENDED)) (
    step 694 (let! v86 := deref v84 in MiscGroup_append v86 "GR" RP_METAR md_default) (fun p => let v87 := Some (fst p) in let v88 := snd p in 
    chk 694 (Ok (AppendResult_beq v88 NOT_APPENDED)) (
    step 696 (let! v89 := deref v87 in MiscGroup_append v89 "1" RP_METAR md_default) (fun p => let v90 := Some (fst p) in let v91 := snd p in 
    chk 696 (Ok (AppendResult_beq v91 NOT_APPENDED)) (
    step 698 (let! v92 := deref v90 in MiscGroup_append v92 "1/4" RP_METAR md_default) (fun p => let v93 := Some (fst p) in let v94 := snd p in 
    chk 698 (Ok (AppendResult_beq v94 NOT_APPENDED)) (
    step 700 (let! v95 := deref v93 in MiscGroup_append v95 "AMB" RP_RMK md_default) (fun p => let v96 := Some (fst p) in let v97 := snd p in 
    chk 700 (Ok (AppendResult_beq v97 NOT_APPENDED)) (
    step 702 (let! v98 := deref v96 in MiscGroup_append v98 "BLACKAMB" RP_RMK md_default) (fun p => let v99 := Some (fst p) in let v100 := snd p in 
    chk 702 (Ok (AppendResult_beq v100 NOT_APPENDED)) (
    step 704 (let! v101 := deref v99 in MiscGroup_append v101 "FROIN" RP_RMK md_default) (fun p => let v102 := Some (fst p) in let v103 := snd p in 
    chk 704 (Ok (AppendResult_beq v103 NOT_APPENDED)) (
    step 706 (let! v104 := deref v102 in MiscGroup_append v104 "FS49728" RP_RMK md_default) (fun p => let v105 := Some (fst p) in let v106 := snd p in 
    chk 706 (Ok (AppendResult_beq v106 NOT_APPENDED)) (
    step 708 (let! v107 := deref v105 in MiscGroup_append v107 "FN07053" RP_RMK md_default) (fun p => let v108 := Some (fst p) in let v109 := snd p in 
    chk 708 (Ok (AppendResult_beq v109 NOT_APPENDED)) (
    step 710 (let! v110 := deref v108 in MiscGroup_append v110 "RMK" RP_METAR md_default) (fun p => let v111 := Some (fst p) in let v112 := snd p in 
    chk 710 (Ok (AppendResult_beq v112 NOT_APPENDED)) (
    step 712 (let! v113 := deref v111 in MiscGroup_append v113 "TEST" RP_METAR md_default) (fun p => let v114 := Some (fst p) in let v115 := snd p in 
    chk 712 (Ok (AppendResult_beq v115 NOT_APPENDED)) (
    step 715 (let! v116 := deref v8 in MiscGroup_append v116 "98096" RP_RMK md_default) (fun p => let v117 := Some (fst p) in let v118 := snd p in 
    chk 715 (Ok (AppendResult_beq v118 NOT_APPENDED)) (
    step 717 (let! v119 := deref v117 in MiscGroup_append v119 "CCA" RP_RMK md_default) (fun p => let v120 := Some (fst p) in let v121 := snd p in 
    chk 717 (Ok (AppendResult_beq v121 NOT_APPENDED)) (
    step 719 (let! v122 := deref v120 in MiscGroup_append v122 "DENSITY" RP_RMK md_default) (fun p => let v123 := Some (fst p) in let v124 := snd p in 
    chk 719 (Ok (AppendResult_beq v124 NOT_APPENDED)) (
    step 721 (let! v125 := deref v123 in MiscGroup_append v125 "ALT" RP_RMK md_default) (fun p => let v126 := Some (fst p) in let v127 := snd p in 
    chk 721 (Ok (AppendResult_beq v127 NOT_APPENDED)) (
    step 723 (let! v128 := deref v126 in MiscGroup_append v128 "1700FT" RP_RMK md_default) (fun p => let v129 := Some (fst p) in let v130 := snd p in 
    chk 723 (Ok (AppendResult_beq v130 NOT_APPENDED)) (
    step 725 (let! v131 := deref v129 in MiscGroup_append v131 "GR" RP_RMK md_default) (fun p => let v132 := Some (fst p) in let v133 := snd p in 
    chk 725 (Ok (AppendResult_beq v133 NOT_APPENDED)) (
    step 727 (let! v134 := deref v132 in MiscGroup_append v134 "1" RP_RMK md_default) (fun p => let v135 := Some (fst p) in let v136 := snd p in 
    chk 727 (Ok (AppendResult_beq v136 NOT_APPENDED)) (
    step 729 (let! v137 := deref v135 in MiscGroup_append v137 "1/4" RP_RMK md_default) (fun p => let v138 := Some (fst p) in let v139 := snd p in 
    chk 729 (Ok (AppendResult_beq v139 NOT_APPENDED)) (
    step 731 (let! v140 := deref v138 in MiscGroup_append v140 "AMB" RP_RMK md_default) (fun p => let v141 := Some (fst p) in let v142 := snd p in 
    chk 731 (Ok (AppendResult_beq v142 NOT_APPENDED)) (
    step 733 (let! v143 := deref v141 in MiscGroup_append v143 "BLACKAMB" RP_RMK md_default) (fun p => let v144 := Some (fst p) in let v145 := snd p in 
    chk 733 (Ok (AppendResult_beq v145 NOT_APPENDED)) (
    step 735 (let! v146 := deref v144 in MiscGroup_append v146 "FROIN" RP_RMK md_default) (fun p => let v147 := Some (fst p) in let v148 := snd p in 
    chk 735 (Ok (AppendResult_beq v148 NOT_APPENDED)) (
    step 737 (let! v149 := deref v147 in MiscGroup_append v149 "FS49728" RP_RMK md_default) (fun p => let v150 := Some (fst p) in let v151 := snd p in 
    chk 737 (Ok (AppendResult_beq v151 NOT_APPENDED)) (
    step 739 (let! v152 := deref v150 in MiscGroup_append v152 "FN07053" RP_RMK md_default) (fun p => let v153 := Some (fst p) in let v154 := snd p in 
    chk 739 (Ok (AppendResult_beq v154 NOT_APPENDED)) (
    step 741 (let! v155 := deref v153 in MiscGroup_append v155 "RMK" RP_RMK md_default) (fun p => let v156 := Some (fst p) in let v157 := snd p in 
    chk 741 (Ok (AppendResult_beq v157 NOT_APPENDED)) (
    step 743 (let! v158 := deref v156 in MiscGroup_append v158 "TEST" RP_RMK md_default) (fun p => let v159 := Some (fst p) in let v160 := snd p in 
    chk 743 (Ok (AppendResult_beq v160 NOT_APPENDED)) (
    step 746 (let! v161 := deref v15 in MiscGroup_append v161 "98096" RP_RMK md_default) (fun p => let v162 := Some (fst p) in let v163 := snd p in 
    chk 746 (Ok (AppendResult_beq v163 NOT_APPENDED)) (
    step 748 (let! v164 := deref v162 in MiscGroup_append v164 "CCA" RP_RMK md_default) (fun p => let v165 := Some (fst p) in let v166 := snd p in 
    chk 748 (Ok (AppendResult_beq v166 NOT_APPENDED)) (
    step 750 (let! v167 := deref v165 in MiscGroup_append v167 "DENSITY" RP_RMK md_default) (fun p => let v168 := Some (fst p) in let v169 := snd p in 
    chk 750 (Ok (AppendResult_beq v169 NOT_APPENDED)) (
    step 752 (let! v170 := deref v168 in MiscGroup_append v170 "ALT" RP_RMK md_default) (fun p => let v171 := Some (fst p) in let v172 := snd p in 
    chk 752 (Ok (AppendResult_beq v172 NOT_APPENDED)) (
    step 754 (let! v173 := deref v171 in MiscGroup_append v173 "1700FT" RP_RMK md_default) (fun p => let v174 := Some (fst p) in let v175 := snd p in 
    chk 754 (Ok (AppendResult_beq v175 NOT_APPENDED)) (
    step 756 (let! v176 := deref v174 in MiscGroup_append v176 "GR" RP_RMK md_default) (fun p => let v177 := Some (fst p) in let v178 := snd p in 
    chk 756 (Ok (AppendResult_beq v178 NOT_APPENDED)) (
    step 758 (let! v179 := deref v177 in MiscGroup_append v179 "1" RP_RMK md_default) (fun p => let v180 := Some (fst p) in let v181 := snd p in 
    chk 758 (Ok (AppendResult_beq v181 NOT_APPENDED)) (
    step 760 (let! v182 := deref v180 in MiscGroup_append v182 "1/4" RP_RMK md_default) (fun p => let v183 := Some (fst p) in let v184 := snd p in 
    chk 760 (Ok (AppendResult_beq v184 NOT_APPENDED)) (
    step 762 (let! v185 := deref v183 in MiscGroup_append v185 "AMB" RP_RMK md_default) (fun p => let v186 := Some (fst p) in let v187 := snd p in 
    chk 762 (Ok (AppendResult_beq v187 NOT_APPENDED)) (
    step 764 (let! v188 := deref v186 in MiscGroup_append v188 "BLACKAMB" RP_RMK md_default) (fun p => let v189 := Some (fst p) in let v190 := snd p in 
    chk 764 (Ok (AppendResult_beq v190 NOT_APPENDED)) (
    step 766 (let! v191 := deref v189 in MiscGroup_append v191 "FROIN" RP_RMK md_default) (fun p => let v192 := Some (fst p) in let v193 := snd p in 
    chk 766 (Ok (AppendResult_beq v193 NOT_APPENDED)) (
    step 768 (let! v194 := deref v192 in MiscGroup_append v194 "FS49728" RP_RMK md_default) (fun p => let v195 := Some (fst p) in let v196 := snd p in 
    chk 768 (Ok (AppendResult_beq v196 NOT_APPENDED)) (
    step 770 (let! v197 := deref v195 in MiscGroup_append v197 "FN07053" RP_RMK md_default) (fun p => let v198 := Some (fst p) in let v199 := snd p in 
    chk 770 (Ok (AppendResult_beq v199 NOT_APPENDED)) (
    step 772 (let! v200 := deref v198 in MiscGroup_append v200 "RMK" RP_RMK md_default) (fun p => let v201 := Some (fst p) in let v202 := snd p in 
    chk 772 (Ok (AppendResult_beq v202 NOT_APPENDED)) (
    step 774 (let! v203 := deref v201 in MiscGroup_append v203 "TEST" RP_RMK md_default) (fun p => let v204 := Some (fst p) in let v205 := snd p in 
    chk 774 (Ok (AppendResult_beq v205 NOT_APPENDED)) (
    step 777 (let! v206 := deref v19 in MiscGroup_append v206 "98096" RP_RMK md_default) (fun p => let v207 := Some (fst p) in let v208 := snd p in 
    chk 777 (Ok (AppendResult_beq v208 NOT_APPENDED)) (
    step 779 (let! v209 := deref v207 in MiscGroup_append v209 "CCA" RP_RMK md_default) (fun p => let v210 := Some (fst p) in let v211 := snd p in 
    chk 779 (Ok (AppendResult_beq v211 NOT_APPENDED)) (
    step 781 (let! v212 := deref v210 in MiscGroup_append v212 "DENSITY" RP_RMK md_default) (fun p => let v213 := Some (fst p) in let v214 := snd p in 
    chk 781 (Ok (AppendResult_beq v214 NOT_APPENDED)) (
    step 783 (let! v215 := deref v213 in MiscGroup_append v215 "ALT" RP_RMK md_default) (fun p => let v216 := Some (fst p) in let v217 := snd p in 
    chk 783 (Ok (AppendResult_beq v217 NOT_APPENDED)) (
    step 785 (let! v218 := deref v216 in MiscGroup_append v218 "1700FT" RP_RMK md_default) (fun p => let v219 := Some (fst p) in let v220 := snd p in 
    chk 785 (Ok (AppendResult_beq v220 NOT_APPENDED)) (
    step 787 (let! v221 := deref v219 in MiscGroup_append v221 "GR" RP_RMK md_default) (fun p => let v222 := Some (fst p) in let v223 := snd p in 
    chk 787 (Ok (AppendResult_beq v223 NOT_APPENDED)) (
    step 789 (let! v224 := deref v222 in MiscGroup_append v224 "1" RP_RMK md_default) (fun p => let v225 := Some (fst p) in let v226 := snd p in 
    chk 789 (Ok (AppendResult_beq v226 NOT_APPENDED)) (
    step 791 (let! v227 := deref v225 in MiscGroup_append v227 "1/4" RP_RMK md_default) (fun p => let v228 := Some (fst p) in let v229 := snd p in 
    chk 791 (Ok (AppendResult_beq v229 NOT_APPENDED)) (
    step 793 (let! v230 := deref v228 in MiscGroup_append v230 "AMB" RP_RMK md_default) (fun p => let v231 := Some (fst p) in let v232 := snd p in 
    chk 793 (Ok (AppendResult_beq v232 NOT_APPENDED)) (
    step 795 (let! v233 := deref v231 in MiscGroup_append v233 "BLACKAMB" RP_RMK md_default) (fun p => let v234 := Some (fst p) in let v235 := snd p in 
    chk 795 (Ok (AppendResult_beq v235 NOT_APPENDED)) (
    step 797 (let! v236 := deref v21 in MiscGroup_append v236 "FROIN" RP_RMK md_default) (fun p => let v237 := Some (fst p) in let v238 := snd p in 
    chk 797 (Ok (AppendResult_beq v238 NOT_APPENDED)) (
    step 799 (let! v239 := deref v234 in MiscGroup_append v239 "FS49728" RP_RMK md_default) (fun p => let v240 := Some (fst p) in let v241 := snd p in 
    chk 799 (Ok (AppendResult_beq v241 NOT_APPENDED)) (
    step 801 (let! v242 := deref v240 in MiscGroup_append v242 "FN07053" RP_RMK md_default) (fun p => let v243 := Some (fst p) in let v244 := snd p in 
    chk 801 (Ok (AppendResult_beq v244 NOT_APPENDED)) (
    step 803 (let! v245 := deref v243 in MiscGroup_append v245 "RMK" RP_RMK md_default) (fun p => let v246 := Some (fst p) in let v247 := snd p in 
    chk 803 (Ok (AppendResult_beq v247 NOT_APPENDED)) (
    step 805 (let! v248 := deref v246 in MiscGroup_append v248 "TEST" RP_RMK md_default) (fun p => let v249 := Some (fst p) in let v250 := snd p in 
    chk 805 (Ok (AppendResult_beq v250 NOT_APPENDED)) (
    step 808 (let! v251 := deref v237 in MiscGroup_append v251 "98096" RP_RMK md_default) (fun p => let v252 := Some (fst p) in let v253 := snd p in 
    chk 808 (Ok (AppendResult_beq v253 NOT_APPENDED)) (
    step 810 (let! v254 := deref v252 in MiscGroup_append v254 "CCA" RP_RMK md_default) (fun p => let v255 := Some (fst p) in let v256 := snd p in 
    chk 810 (Ok (AppendResult_beq v256 NOT_APPENDED)) (
    step 812 (let! v257 := deref v255 in MiscGroup_append v257 "DENSITY" RP_RMK md_default) (fun p => let v258 := Some (fst p) in let v259 := snd p in 
    chk 812 (Ok (AppendResult_beq v259 NOT_APPENDED)) (
    step 814 (let! v260 := deref v258 in MiscGroup_append v260 "ALT" RP_RMK md_default) (fun p => let v261 := Some (fst p) in let v262 := snd p in 
    chk 814 (Ok (AppendResult_beq v262 NOT_APPENDED)) (
    step 816 (let! v263 := deref v261 in MiscGroup_append v263 "1700FT" RP_RMK md_default) (fun p => let v264 := Some (fst p) in let v265 := snd p in 
    chk 816 (Ok (AppendResult_beq v265 NOT_APPENDED)) (
    step 818 (let! v266 := deref v264 in MiscGroup_append v266 "GR" RP_RMK md_default) (fun p => let v267 := Some (fst p) in let v268 := snd p in 
    chk 818 (Ok (AppendResult_beq v268 NOT_APPENDED)) (
    step 820 (let! v269 := deref v267 in MiscGroup_append v269 "1" RP_RMK md_default) (fun p => let v270 := Some (fst p) in let v271 := snd p in 
    chk 820 (Ok (AppendResult_beq v271 NOT_APPENDED)) (
    step 822 (let! v272 := deref v270 in MiscGroup_append v272 "1/4" RP_RMK md_default) (fun p => let v273 := Some (fst p) in let v274 := snd p in 
    chk 822 (Ok (AppendResult_beq v274 NOT_APPENDED)) (
    step 824 (let! v275 := deref v273 in MiscGroup_append v275 "AMB" RP_RMK md_default) (fun p => let v276 := Some (fst p) in let v277 := snd p in 
    chk 824 (Ok (AppendResult_beq v277 NOT_APPENDED)) (
    step 826 (let! v278 := deref v276 in MiscGroup_append v278 "BLACKAMB" RP_RMK md_default) (fun p => let v279 := Some (fst p) in let v280 := snd p in 
    chk 826 (Ok (AppendResult_beq v280 NOT_APPENDED)) (
    step 828 (let! v281 := deref v279 in MiscGroup_append v281 "FROIN" RP_RMK md_default) (fun p => let v282 := Some (fst p) in let v283 := snd p in 
    chk 828 (Ok (AppendResult_beq v283 NOT_APPENDED)) (
    step 830 (let! v284 := deref v282 in MiscGroup_append v284 "FS49728" RP_RMK md_default) (fun p => let v285 := Some (fst p) in let v286 := snd p in 
    chk 830 (Ok (AppendResult_beq v286 NOT_APPENDED)) (
    step 832 (let! v287 := deref v285 in MiscGroup_append v287 "FN07053" RP_RMK md_default) (fun p => let v288 := Some (fst p) in let v289 := snd p in 
    chk 832 (Ok (AppendResult_beq v289 NOT_APPENDED)) (
    step 834 (let! v290 := deref v288 in MiscGroup_append v290 "RMK" RP_RMK md_default) (fun p => let v291 := Some (fst p) in let v292 := snd p in 
    chk 834 (Ok (AppendResult_beq v292 NOT_APPENDED)) (
    step 836 (let! v293 := deref v291 in MiscGroup_append v293 "TEST" RP_RMK md_default) (fun p => let v294 := Some (fst p) in let v295 := snd p in 
    chk 836 (Ok (AppendResult_beq v295 NOT_APPENDED)) (
    step 839 (let! v296 := deref v22 in MiscGroup_append v296 "98096" RP_RMK md_default) (fun p => let v297 := Some (fst p) in let v298 := snd p in 
    chk 839 (Ok (AppendResult_beq v298 NOT_APPENDED)) (
    step 841 (let! v299 := deref v297 in MiscGroup_append v299 "CCA" RP_RMK md_default) (fun p => let v300 := Some (fst p) in let v301 := snd p in 
    chk 841 (Ok (AppendResult_beq v301 NOT_APPENDED)) (
    step 843 (let! v302 := deref v300 in MiscGroup_append v302 "DENSITY" RP_RMK md_default) (fun p => let v303 := Some (fst p) in let v304 := snd p in 
    chk 843 (Ok (AppendResult_beq v304 NOT_APPENDED)) (
    step 845 (let! v305 := deref v303 in MiscGroup_append v305 "ALT" RP_RMK md_default) (fun p => let v306 := Some (fst p) in let v307 := snd p in 
    chk 845 (Ok (AppendResult_beq v307 NOT_APPENDED)) (
    step 847 (let! v308 := deref v306 in MiscGroup_append v308 "1700FT" RP_RMK md_default) (fun p => let v309 := Some (fst p) in let v310 := snd p in 
    chk 847 (Ok (AppendResult_beq v310 NOT_APPENDED)) (
    step 849 (let! v311 := deref v309 in MiscGroup_append v311 "GR" RP_RMK md_default) (fun p => let v312 := Some (fst p) in let v313 := snd p in 
    chk 849 (Ok (AppendResult_beq v313 NOT_APPENDED)) (
    step 851 (let! v314 := deref v312 in MiscGroup_append v314 "1" RP_RMK md_default) (fun p => let v315 := Some (fst p) in let v316 := snd p in 
    chk 851 (Ok (AppendResult_beq v316 NOT_APPENDED)) (
    step 853 (let! v317 := deref v315 in MiscGroup_append v317 "1/4" RP_RMK md_default) (fun p => let v318 := Some (fst p) in let v319 := snd p in 
    chk 853 (Ok (AppendResult_beq v319 NOT_APPENDED)) (
    step 855 (let! v320 := deref v318 in MiscGroup_append v320 "AMB" RP_RMK md_default) (fun p => let v321 := Some (fst p) in let v322 := snd p in 
    chk 855 (Ok (AppendResult_beq v322 NOT_APPENDED)) (
    step 857 (let! v323 := deref v321 in MiscGroup_append v323 "BLACKAMB" RP_RMK md_default) (fun p => let v324 := Some (fst p) in let v325 := snd p in 
    chk 857 (Ok (AppendResult_beq v325 NOT_APPENDED)) (
    step 859 (let! v326 := deref v324 in MiscGroup_append v326 "FROIN" RP_RMK md_default) (fun p => let v327 := Some (fst p) in let v328 := snd p in 
    chk 859 (Ok (AppendResult_beq v328 NOT_APPENDED)) (
    step 861 (let! v329 := deref v327 in MiscGroup_append v329 "FS49728" RP_RMK md_default) (fun p => let v330 := Some (fst p) in let v331 := snd p in 
    chk 861 (Ok (AppendResult_beq v331 NOT_APPENDED)) (
    step 863 (let! v332 := deref v330 in MiscGroup_append v332 "FN07053" RP_RMK md_default) (fun p => let v333 := Some (fst p) in let v334 := snd p in 
    chk 863 (Ok (AppendResult_beq v334 NOT_APPENDED)) (
    step 865 (let! v335 := deref v333 in MiscGroup_append v335 "RMK" RP_RMK md_default) (fun p => let v336 := Some (fst p) in let v337 := snd p in 
    chk 865 (Ok (AppendResult_beq v337 NOT_APPENDED)) (
    step 867 (let! v338 := deref v336 in MiscGroup_append v338 "TEST" RP_RMK md_default) (fun p => let v339 := Some (fst p) in let v340 := snd p in 
    chk 867 (Ok (AppendResult_beq v340 NOT_APPENDED)) (
    step 870 (let! v341 := deref v23 in MiscGroup_append v341 "98096" RP_RMK md_default) (fun p => let v342 := Some (fst p) in let v343 := snd p in 
    chk 870 (Ok (AppendResult_beq v343 NOT_APPENDED)) (
    step 872 (let! v344 := deref v342 in MiscGroup_append v344 "CCA" RP_RMK md_default) (fun p => let v345 := Some (fst p) in let v346 := snd p in 
    chk 872 (Ok (AppendResult_beq v346 NOT_APPENDED)) (
    step 874 (let! v347 := deref v345 in MiscGroup_append v347 "DENSITY" RP_RMK md_default) (fun p => let v348 := Some (fst p) in let v349 := snd p in 
    chk 874 (Ok (AppendResult_beq v349 NOT_APPENDED)) (
    step 876 (let! v350 := deref v348 in MiscGroup_append v350 "ALT" RP_RMK md_default) (fun p => let v351 := Some (fst p) in let v352 := snd p in 
    chk 876 (Ok (AppendResult_beq v352 NOT_APPENDED)) (
    step 878 (let! v353 := deref v351 in MiscGroup_append v353 "1700FT" RP_RMK md_default) (fun p => let v354 := Some (fst p) in let v355 := snd p in 
    chk 878 (Ok (AppendResult_beq v355 NOT_APPENDED)) (
    step 880 (let! v356 := deref v354 in MiscGroup_append v356 "GR" RP_RMK md_default) (fun p => let v357 := Some (fst p) in let v358 := snd p in 
    chk 880 (Ok (AppendResult_beq v358 NOT_APPENDED)) (
    step 882 (let! v359 := deref v357 in MiscGroup_append v359 "1" RP_RMK md_default) (fun p => let v360 := Some (fst p) in let v361 := snd p in 
    chk 882 (Ok (AppendResult_beq v361 NOT_APPENDED)) (
    step 884 (let! v362 := deref v360 in MiscGroup_append v362 "1/4" RP_RMK md_default) (fun p => let v363 := Some (fst p) in let v364 := snd p in 
    chk 884 (Ok (AppendResult_beq v364 NOT_APPENDED)) (
    step 886 (let! v365 := deref v363 in MiscGroup_append v365 "AMB" RP_RMK md_default) (fun p => let v366 := Some (fst p) in let v367 := snd p in 
    chk 886 (Ok (AppendResult_beq v367 NOT_APPENDED)) (
    step 888 (let! v368 := deref v366 in MiscGroup_append v368 "BLACKAMB" RP_RMK md_default) (fun p => let v369 := Some (fst p) in let v370 := snd p in 
    chk 888 (Ok (AppendResult_beq v370 NOT_APPENDED)) (
    step 890 (let! v371 := deref v369 in MiscGroup_append v371 "FROIN" RP_RMK md_default) (fun p => let v372 := Some (fst p) in let v373 := snd p in 
    chk 890 (Ok (AppendResult_beq v373 NOT_APPENDED)) (
    step 892 (let! v374 := deref v372 in MiscGroup_append v374 "FS49728" RP_RMK md_default) (fun p => let v375 := Some (fst p) in let v376 := snd p in 
    chk 892 (Ok (AppendResult_beq v376 NOT_APPENDED)) (
    step 894 (let! v377 := deref v375 in MiscGroup_append v377 "FN07053" RP_RMK md_default) (fun p => let v378 := Some (fst p) in let v379 := snd p in 
    chk 894 (Ok (AppendResult_beq v379 NOT_APPENDED)) (
    step 896 (let! v380 := deref v378 in MiscGroup_append v380 "RMK" RP_RMK md_default) (fun p => let v381 := Some (fst p) in let v382 := snd p in 
    chk 896 (Ok (AppendResult_beq v382 NOT_APPENDED)) (
    step 898 (let! v383 := deref v381 in MiscGroup_append v383 "TEST" RP_RMK md_default) (fun p => let v384 := Some (fst p) in let v385 := snd p in 
    chk 898 (Ok (AppendResult_beq v385 NOT_APPENDED)) (
    step 901 (let! v386 := deref v24 in MiscGroup_append v386 "98096" RP_RMK md_default) (fun p => let v387 := Some (fst p) in let v388 := snd p in 
    chk 901 (Ok (AppendResult_beq v388 NOT_APPENDED)) (
    step 903 (let! v389 := deref v387 in MiscGroup_append v389 "CCA" RP_RMK md_default) (fun p => let v390 := Some (fst p) in let v391 := snd p in 
    chk 903 (Ok (AppendResult_beq v391 NOT_APPENDED)) (
    step 905 (let! v392 := deref v390 in MiscGroup_append v392 "DENSITY" RP_RMK md_default) (fun p => let v393 := Some (fst p) in let v394 := snd p in 
    chk 905 (Ok (AppendResult_beq v394 NOT_APPENDED)) (
    step 907 (let! v395 := deref v393 in MiscGroup_append v395 "ALT" RP_RMK md_default) (fun p => let v396 := Some (fst p) in let v397 := snd p in 
    chk 907 (Ok (AppendResult_beq v397 NOT_APPENDED)) (
    step 909 (let! v398 := deref v396 in MiscGroup_append v398 "1700FT" RP_RMK md_default) (fun p => let v399 := Some (fst p) in let v400 := snd p in 
    chk 909 (Ok (AppendResult_beq v400 NOT_APPENDED)) (
    step 911 (let! v401 := deref v399 in MiscGroup_append v401 "GR" RP_RMK md_default) (fun p => let v402 := Some (fst p) in let v403 := snd p in 
    chk 911 (Ok (AppendResult_beq v403 NOT_APPENDED)) (
    step 913 (let! v404 := deref v402 in MiscGroup_append v404 "1" RP_RMK md_default) (fun p => let v405 := Some (fst p) in let v406 := snd p in 
    chk 913 (Ok (AppendResult_beq v406 NOT_APPENDED)) (
    step 915 (let! v407 := deref v405 in MiscGroup_append v407 "1/4" RP_RMK md_default) (fun p => let v408 := Some (fst p) in let v409 := snd p in 
    chk 915 (Ok (AppendResult_beq v409 NOT_APPENDED)) (
    step 917 (let! v410 := deref v408 in MiscGroup_append v410 "AMB" RP_RMK md_default) (fun p => let v411 := Some (fst p) in let v412 := snd p in 
    chk 917 (Ok (AppendResult_beq v412 NOT_APPENDED)) (
    step 919 (let! v413 := deref v411 in MiscGroup_append v413 "BLACKAMB" RP_RMK md_default) (fun p => let v414 := Some (fst p) in let v415 := snd p in 
    chk 919 (Ok (AppendResult_beq v415 NOT_APPENDED)) (
    step 921 (let! v416 := deref v414 in MiscGroup_append v416 "FROIN" RP_RMK md_default) (fun p => let v417 := Some (fst p) in let v418 := snd p in 
    chk 921 (Ok (AppendResult_beq v418 NOT_APPENDED)) (
    step 923 (let! v419 := deref v417 in MiscGroup_append v419 "FS49728" RP_RMK md_default) (fun p => let v420 := Some (fst p) in let v421 := snd p in 
    chk 923 (Ok (AppendResult_beq v421 NOT_APPENDED)) (
    step 925 (let! v422 := deref v420 in MiscGroup_append v422 "FN07053" RP_RMK md_default) (fun p => let v423 := Some (fst p) in let v424 := snd p in 
    chk 925 (Ok (AppendResult_beq v424 NOT_APPENDED)) (
    step 927 (let! v425 := deref v423 in MiscGroup_append v425 "RMK" RP_RMK md_default) (fun p => let v426 := Some (fst p) in let v427 := snd p in 
    chk 927 (Ok (AppendResult_beq v427 NOT_APPENDED)) (
    step 929 (let! v428 := deref v426 in MiscGroup_append v428 "TEST" RP_RMK md_default) (fun p => let v429 := Some (fst p) in let v430 := snd p in 
    chk 929 (Ok (AppendResult_beq v430 NOT_APPENDED)) (
    step 932 (let! v431 := deref v25 in MiscGroup_append v431 "98096" RP_RMK md_default) (fun p => let v432 := Some (fst p) in let v433 := snd p in 
    chk 932 (Ok (AppendResult_beq v433 NOT_APPENDED)) (
    step 934 (let! v434 := deref v432 in MiscGroup_append v434 "CCA" RP_RMK md_default) (fun p => let v435 := Some (fst p) in let v436 := snd p in 
    chk 934 (Ok (AppendResult_beq v436 NOT_APPENDED)) (
    step 936 (let! v437 := deref v435 in MiscGroup_append v437 "DENSITY" RP_RMK md_default) (fun p => let v438 := Some (fst p) in let v439 := snd p in 
    chk 936 (Ok (AppendResult_beq v439 NOT_APPENDED)) (
    step 938 (let! v440 := deref v438 in MiscGroup_append v440 "ALT" RP_RMK md_default) (fun p => let v441 := Some (fst p) in let v442 := snd p in 
    chk 938 (Ok (AppendResult_beq v442 NOT_APPENDED)) (
    step 940 (let! v443 := deref v441 in MiscGroup_append v443 "1700FT" RP_RMK md_default) (fun p => let v444 := Some (fst p) in let v445 := snd p in 
    chk 940 (Ok (AppendResult_beq v445 NOT_APPENDED)) (
    step 942 (let! v446 := deref v444 in MiscGroup_append v446 "GR" RP_RMK md_default) (fun p => let v447 := Some (fst p) in let v448 := snd p in 
    chk 942 (Ok (AppendResult_beq v448 NOT_APPENDED)) (
    step 944 (let! v449 := deref v447 in MiscGroup_append v449 "1" RP_RMK md_default) (fun p => let v450 := Some (fst p) in let v451 := snd p in 
    chk 944 (Ok (AppendResult_beq v451 NOT_APPENDED)) (
    step 946 (let! v452 := deref v450 in MiscGroup_append v452 "1/4" RP_RMK md_default) (fun p => let v453 := Some (fst p) in let v454 := snd p in 
    chk 946 (Ok (AppendResult_beq v454 NOT_APPENDED)) (
    step 948 (let! v455 := deref v453 in MiscGroup_append v455 "AMB" RP_RMK md_default) (fun p => let v456 := Some (fst p) in let v457 := snd p in 
    chk 948 (Ok (AppendResult_beq v457 NOT_APPENDED)) (
    step 950 (let! v458 := deref v456 in MiscGroup_append v458 "BLACKAMB" RP_RMK md_default) (fun p => let v459 := Some (fst p) in let v460 := snd p in 
    chk 950 (Ok (AppendResult_beq v460 NOT_APPENDED)) (
    step 952 (let! v461 := deref v459 in MiscGroup_append v461 "FROIN" RP_RMK md_default) (fun p => let v462 := Some (fst p) in let v463 := snd p in 
    chk 952 (Ok (AppendResult_beq v463 NOT_APPENDED)) (
    step 954 (let! v464 := deref v462 in MiscGroup_append v464 "FS49728" RP_RMK md_default) (fun p => let v465 := Some (fst p) in let v466 := snd p in 
    chk 954 (Ok (AppendResult_beq v466 NOT_APPENDED)) (
    step 956 (let! v467 := deref v465 in MiscGroup_append v467 "FN07053" RP_RMK md_default) (fun p => let v468 := Some (fst p) in let v469 := snd p in 
    chk 956 (Ok (AppendResult_beq v469 NOT_APPENDED)) (
    step 958 (let! v470 := deref v468 in MiscGroup_append v470 "RMK" RP_RMK md_default) (fun p => let v471 := Some (fst p) in let v472 := snd p in 
    chk 958 (Ok (AppendResult_beq v472 NOT_APPENDED)) (
    step 960 (let! v473 := deref v471 in MiscGroup_append v473 "TEST" RP_RMK md_default) (fun p => let v474 := Some (fst p) in let v475 := snd p in 
    chk 960 (Ok (AppendResult_beq v475 NOT_APPENDED)) (
    None)))))))))))))))))))))))))))))))))))))))))))))))))))))))))))))))))))))))))))))))))))))))))))))))))))))))))))))))))))))))))))))))))))))))))))))))))))))))))))))))))))))))))))))))))))))))))))))))))))))))))))))))))))))))))))))))))))))))))))))))))))))))))))))))))))))))))))))))))))))))))))))))))))))))))))))))))))))))))))))))))))))))))).

Definition t_MiscGroup_isValidSunshineDuration : option N :=
    step 971 ((MiscGroup_parse "98096" RP_RMK md_default)) (fun v1 => 
    chk 972 (Ok (has_value v1)) (
    chk 973 (let! v2 := deref v1 in Ok (MiscGroup_isValid v2)) (
    None))).

Definition t_MiscGroup_isValidCorrection : option N :=
    step 977 ((MiscGroup_parse "CCA" RP_METAR md_default)) (fun v1 => 
    chk 978 (Ok (has_value v1)) (
    chk 979 (let! v2 := deref v1 in Ok (MiscGroup_isValid v2)) (
    None))).

Definition t_MiscGroup_isValidDensityAltitude : option N :=
    step 983 ((MiscGroup_parse "DENSITY" RP_RMK md_default)) (fun v1 => 
    chk 984 (Ok (has_value v1)) (
    chk 985 (let! v2 := deref v1 in Ok (negb (MiscGroup_isValid v2))) (
    step 986 (let! v3 := deref v1 in MiscGroup_append v3 "ALT" RP_RMK md_default) (fun p => let v4 := Some (fst p) in let v5 := snd p in 
    chk 986 (Ok (AppendResult_beq v5 APPENDED)) (
    chk 987 (let! v6 := deref v4 in Ok (negb (MiscGroup_isValid v6))) (
    step 988 (let! v7 := deref v4 in MiscGroup_append v7 "3700FT" RP_RMK md_default) (fun p => let v8 := Some (fst p) in let v9 := snd p in 
    chk 988 (Ok (AppendResult_beq v9 APPENDED)) (
    chk 989 (let! v10 := deref v8 in Ok (MiscGroup_isValid v10)) (
    None))))))))).

Definition t_MiscGroup_isValidHailstoneSize : option N :=
    step 993 ((MiscGroup_parse "GR" RP_RMK md_default)) (fun v1 => 
    chk 994 (Ok (has_value v1)) (
    chk 995 (let! v2 := deref v1 in Ok (negb (MiscGroup_isValid v2))) (
    step 996 (let! v3 := deref v1 in MiscGroup_append v3 "1" RP_RMK md_default) (fun p => let v4 := Some (fst p) in let v5 := snd p in 
    chk 996 (Ok (AppendResult_beq v5 APPENDED)) (
    chk 997 (let! v6 := deref v4 in Ok (negb (MiscGroup_isValid v6))) (
    step 998 (let! v7 := deref v4 in MiscGroup_append v7 "1/4" RP_RMK md_default) (fun p => let v8 := Some (fst p) in let v9 := snd p in 
    chk 998 (Ok (AppendResult_beq v9 APPENDED)) (
    chk 999 (let! v10 := deref v8 in Ok (MiscGroup_isValid v10)) (
    step 1001 ((MiscGroup_parse "GR" RP_RMK md_default)) (fun v11 => 
    chk 1002 (Ok (has_value v11)) (
    chk 1003 (let! v12 := deref v11 in Ok (negb (MiscGroup_isValid v12))) (
    step 1004 (let! v13 := deref v11 in MiscGroup_append v13 "3/4" RP_RMK md_default) (fun p => let v14 := Some (fst p) in let v15 := snd p in 
    chk 1004 (Ok (AppendResult_beq v15 APPENDED)) (
    chk 1005 (let! v16 := deref v14 in Ok (MiscGroup_isValid v16)) (
    None))))))))))))))).

Definition t_MiscGroup_isValidColourCodes : option N :=
    step 1009 ((MiscGroup_parse "BLU" RP_METAR md_default)) (fun v1 => 
    chk 1010 (Ok (has_value v1)) (
    chk 1011 (let! v2 := deref v1 in Ok (MiscGroup_isValid v2)) (
    step 1013 ((MiscGroup_parse "WHT" RP_METAR md_default)) (fun v3 => 
    chk 1014 (Ok (has_value v3)) (
    chk 1015 (let! v4 := deref v3 in Ok (MiscGroup_isValid v4)) (
    step 1017 ((MiscGroup_parse "GRN" RP_METAR md_default)) (fun v5 => 
    chk 1018 (Ok (has_value v5)) (
    chk 1019 (let! v6 := deref v5 in Ok (MiscGroup_isValid v6)) (
    step 1021 ((MiscGroup_parse "YLO1" RP_METAR md_default)) (fun v7 => 
    chk 1022 (Ok (has_value v7)) (
    chk 1023 (let! v8 := deref v7 in Ok (MiscGroup_isValid v8)) (
    step 1025 ((MiscGroup_parse "YLO2" RP_METAR md_default)) (fun v9 => 
    chk 1026 (Ok (has_value v9)) (
    chk 1027 (let! v10 := deref v9 in Ok (MiscGroup_isValid v10)) (
    step 1029 ((MiscGroup_parse "AMB" RP_METAR md_default)) (fun v11 => 
    chk 1030 (Ok (has_value v11)) (
    chk 1031 (let! v12 := deref v11 in Ok (MiscGroup_isValid v12)) (
    step 1033 ((MiscGroup_parse "RED" RP_METAR md_default)) (fun v13 => 
    chk 1034 (Ok (has_value v13)) (
    chk 1035 (let! v14 := deref v13 in Ok (MiscGroup_isValid v14)) (
    step 1037 ((MiscGroup_parse "BLACKBLU" RP_METAR md_default)) (fun v15 => 
    chk 1038 (Ok (has_value v15)) (
    chk 1039 (let! v16 := deref v15 in Ok (MiscGroup_isValid v16)) (
    step 1041 ((MiscGroup_parse "BLACKWHT" RP_METAR md_default)) (fun v17 => 
    chk 1042 (Ok (has_value v17)) (
    chk 1043 (let! v18 := deref v17 in Ok (MiscGroup_isValid v18)) (
    step 1045 ((MiscGroup_parse "BLACKGRN" RP_METAR md_default)) (fun v19 => 
    chk 1046 (Ok (has_value v19)) (
    chk 1047 (let! v20 := deref v19 in Ok (MiscGroup_isValid v20)) (
    step 1049 ((MiscGroup_parse "BLACKYLO1" RP_METAR md_default)) (fun v21 => 
    chk 1050 (Ok (has_value v21)) (
    chk 1051 (let! v22 := deref v21 in Ok (MiscGroup_isValid v22)) (
    step 1053 ((MiscGroup_parse "BLACKYLO2" RP_METAR md_default)) (fun v23 => 
    chk 1054 (Ok (has_value v23)) (
    chk 1055 (let! v24 := deref v23 in Ok (MiscGroup_isValid v24)) (
    step 1057 ((MiscGroup_parse "BLACKAMB" RP_METAR md_default)) (fun v25 => 
    chk 1058 (Ok (has_value v25)) (
    chk 1059 (let! v26 := deref v25 in Ok (MiscGroup_isValid v26)) (
    step 1061 ((MiscGroup_parse "BLACKRED" RP_METAR md_default)) (fun v27 => 
    chk 1062 (Ok (has_value v27)) (
    chk 1063 (let! v28 := deref v27 in Ok (MiscGroup_isValid v28)) (
    None)))))))))))))))))))))))))))))))))))))))))).

Definition t_MiscGroup_isValidFroin : option N :=
    step 1067 ((MiscGroup_parse "FROIN" RP_RMK md_default)) (fun v1 => 
    chk 1068 (Ok (has_value v1)) (
    chk 1069 (let! v2 := deref v1 in Ok (MiscGroup_isValid v2)) (
    None))).

Example tests_miscgroup_pass : failures
  [("MiscGroup_parseSunshineDuration", t_MiscGroup_parseSunshineDuration);
   ("MiscGroup_parseSunshineDurationWrongReportPart", t_MiscGroup_parseSunshineDurationWrongReportPart);
   ("MiscGroup_parseSunshineDurationWrongFormat", t_MiscGroup_parseSunshineDurationWrongFormat);
   ("MiscGroup_parseCorrectedObservation", t_MiscGroup_parseCorrectedObservation);
   ("MiscGroup_parseCorrectedObservationWrongReportPart", t_MiscGroup_parseCorrectedObservationWrongReportPart);
   ("MiscGroup_parseCorrectedObservationDurationWrongFormat", t_MiscGroup_parseCorrectedObservationDurationWrongFormat);
   ("MiscGroup_parseDensityAlt", t_MiscGroup_parseDensityAlt);
   ("MiscGroup_parseDensityAltMisg", t_MiscGroup_parseDensityAltMisg);
   ("MiscGroup_parseDensityWrongReportPart", t_MiscGroup_parseDensityWrongReportPart);
   ("MiscGroup_parseDensityAltWrongFormat", t_MiscGroup_parseDensityAltWrongFormat);
   ("MiscGroup_parseDensityAppendOther", t_MiscGroup_parseDensityAppendOther);
   ("MiscGroup_parseDensityAltAppendOther", t_MiscGroup_parseDensityAltAppendOther);
   ("MiscGroup_parseGr", t_MiscGroup_parseGr);
   ("MiscGroup_parseGrWrongReportPart", t_MiscGroup_parseGrWrongReportPart);
   ("MiscGroup_parseGrWrongFormat", t_MiscGroup_parseGrWrongFormat);
   ("MiscGroup_parseGrAppendOther", t_MiscGroup_parseGrAppendOther);
   ("MiscGroup_parseGrIntAppendOther", t_MiscGroup_parseGrIntAppendOther);
   ("MiscGroup_parseColourCodeBluePlus", t_MiscGroup_parseColourCodeBluePlus);
   ("MiscGroup_parseColourCodeBlue", t_MiscGroup_parseColourCodeBlue);
   ("MiscGroup_parseColourCodeWhite", t_MiscGroup_parseColourCodeWhite);
   ("MiscGroup_parseColourCodeGreen", t_MiscGroup_parseColourCodeGreen);
   ("MiscGroup_parseColourCodeYellow", t_MiscGroup_parseColourCodeYellow);
   ("MiscGroup_parseColourCodeYellow1", t_MiscGroup_parseColourCodeYellow1);
   ("MiscGroup_parseColourCodeYellow2", t_MiscGroup_parseColourCodeYellow2);
   ("MiscGroup_parseColourCodeAmber", t_MiscGroup_parseColourCodeAmber);
   ("MiscGroup_parseColourCodeRed", t_MiscGroup_parseColourCodeRed);
   ("MiscGroup_parseColourCodeBlackBluePlus", t_MiscGroup_parseColourCodeBlackBluePlus);
   ("MiscGroup_parseColourCodeBlackBlue", t_MiscGroup_parseColourCodeBlackBlue);
   ("MiscGroup_parseColourCodeBlackWhite", t_MiscGroup_parseColourCodeBlackWhite);
   ("MiscGroup_parseColourCodeBlackGreen", t_MiscGroup_parseColourCodeBlackGreen);
   ("MiscGroup_parseColourCodeBlackYellow", t_MiscGroup_parseColourCodeBlackYellow);
   ("MiscGroup_parseColourCodeBlackYellow1", t_MiscGroup_parseColourCodeBlackYellow1);
   ("MiscGroup_parseColourCodeBlackYellow2", t_MiscGroup_parseColourCodeBlackYellow2);
   ("MiscGroup_parseColourCodeBlackAmber", t_MiscGroup_parseColourCodeBlackAmber);
   ("MiscGroup_parseColourCodeBlackRed", t_MiscGroup_parseColourCodeBlackRed);
   ("MiscGroup_parseCoulourCodeRmk", t_MiscGroup_parseCoulourCodeRmk);
   ("MiscGroup_parseCoulourCodeWrongReportPart", t_MiscGroup_parseCoulourCodeWrongReportPart);
   ("MiscGroup_parseColourCodeWrongFormat", t_MiscGroup_parseColourCodeWrongFormat);
   ("MiscGroup_parseFroin", t_MiscGroup_parseFroin);
   ("MiscGroup_parseFroinWrongReportPart", t_MiscGroup_parseFroinWrongReportPart);
   ("MiscGroup_parseIssuerIdFn", t_MiscGroup_parseIssuerIdFn);
   ("MiscGroup_parseIssuerIdFs", t_MiscGroup_parseIssuerIdFs);
   ("MiscGroup_parseIssuerIdWrongReportPart", t_MiscGroup_parseIssuerIdWrongReportPart);
   ("MiscGroup_appendToCompleteGroups", t_MiscGroup_appendToCompleteGroups);
   ("MiscGroup_isValidSunshineDuration", t_MiscGroup_isValidSunshineDuration);
   ("MiscGroup_isValidCorrection", t_MiscGroup_isValidCorrection);
   ("MiscGroup_isValidDensityAltitude", t_MiscGroup_isValidDensityAltitude);
   ("MiscGroup_isValidHailstoneSize", t_MiscGroup_isValidHailstoneSize);
   ("MiscGroup_isValidColourCodes", t_MiscGroup_isValidColourCodes);
   ("MiscGroup_isValidFroin", t_MiscGroup_isValidFroin)] = [].
Proof. vm_compute. reflexivity. Qed.
