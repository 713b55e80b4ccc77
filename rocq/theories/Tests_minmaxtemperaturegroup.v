(** Generated by tools/gen_tests.py from /repo/test/test_minmaxtemperaturegroup.cpp: the project's own unit tests, run
    against the model. These are tests of the model's fidelity, not properties. *)

From Verif Require Import Prim Regex Float Values Weather Groups1 Groups2 Groups3 Groups4 Parser TestLib.
Local Open Scope string_scope.
Local Open Scope bool_scope.

Definition t_MinMaxTemperatureGroup_parse24hourly : option N :=
    step 21 ((MinMaxTemperatureGroup_parse "401120084" RP_RMK md_default)) (fun v1 => 
    chk 23 (Ok (has_value v1)) (
    chk 24 (let! v2 := deref v1 in Ok (MmType_beq (mm_t v2) Mm_OBSERVED_24_HOURLY)) (
    chk 26 (let! v3 := deref v1 in Ok (Temperature_isReported (mm_minTemp v3))) (
    chk 27 (let! v4 := deref v1 in Ok (has_value (Temperature_temperature (mm_minTemp v4)))) (
    chk 28 (let! v5 := deref v1 in let! v6 := deref (Temperature_temperature (mm_minTemp v5)) in Ok (near v6 (dlit (42) 5) (dlit (1) 20))) (
    chk 29 (let! v7 := deref v1 in Ok (TempUnit_beq Temp_C Temp_C)) (
    chk 30 (let! v8 := deref v1 in Ok (Temperature_isReported (mm_maxTemp v8))) (
    chk 31 (let! v9 := deref v1 in Ok (has_value (Temperature_temperature (mm_maxTemp v9)))) (
    chk 32 (let! v10 := deref v1 in let! v11 := deref (Temperature_temperature (mm_maxTemp v10)) in Ok (near v11 (dlit (56) 5) (dlit (1) 20))) (
    chk 33 (let! v12 := deref v1 in Ok (TempUnit_beq Temp_C Temp_C)) (
    chk 34 (let! v13 := deref v1 in Ok (negb (has_value (mm_minTime v13)))) (
    chk 35 (let! v14 := deref v1 in Ok (negb (has_value (mm_maxTime v14)))) (
    step 37 ((MinMaxTemperatureGroup_parse "401001015" RP_RMK md_default)) (fun v15 => 
    chk 39 (Ok (has_value v15)) (
    chk 40 (let! v16 := deref v15 in Ok (MmType_beq (mm_t v16) Mm_OBSERVED_24_HOURLY)) (
    chk 42 (let! v17 := deref v15 in Ok (Temperature_isReported (mm_minTemp v17))) (
    chk 43 (let! v18 := deref v15 in Ok (has_value (Temperature_temperature (mm_minTemp v18)))) (
    chk 44 (let! v19 := deref v15 in let! v20 := deref (Temperature_temperature (mm_minTemp v19)) in Ok (near v20 (dlit (-3) 2) (dlit (1) 20))) (
    chk 45 (let! v21 := deref v15 in Ok (TempUnit_beq Temp_C Temp_C)) (
    chk 46 (let! v22 := deref v15 in Ok (Temperature_isReported (mm_maxTemp v22))) (
    chk 47 (let! v23 := deref v15 in Ok (has_value (Temperature_temperature (mm_maxTemp v23)))) (
    chk 48 (let! v24 := deref v15 in let! v25 := deref (Temperature_temperature (mm_maxTemp v24)) in Ok (near v25 (dlit (10) 1) (dlit (1) 20))) (
    chk 49 (let! v26 := deref v15 in Ok (TempUnit_beq Temp_C Temp_C)) (
    chk 50 (let! v27 := deref v15 in Ok (negb (has_value (mm_minTime v27)))) (
    chk 51 (let! v28 := deref v15 in Ok (negb (has_value (mm_maxTime v28)))) (
    None)))))))))))))))))))))))))).

Definition t_MinMaxTemperatureGroup_parse24hourlyWrongReportPart : option N :=
    chk 55 (let! v1 := (MinMaxTemperatureGroup_parse "401120084" RP_UNKNOWN md_default) in Ok (negb (has_value v1))) (
    chk 57 (let! v2 := (MinMaxTemperatureGroup_parse "401120084" RP_HEADER md_default) in Ok (negb (has_value v2))) (
    chk 59 (let! v3 := (MinMaxTemperatureGroup_parse "401120084" RP_METAR md_default) in Ok (negb (has_value v3))) (
    chk 61 (let! v4 := (MinMaxTemperatureGroup_parse "401120084" RP_TAF md_default) in Ok (negb (has_value v4))) (
    None)))).

Definition t_MinMaxTemperatureGroup_parse24hourlyWrongFormat : option N :=
    chk 66 (let! v1 := (MinMaxTemperatureGroup_parse "001120084" RP_RMK md_default) in Ok (negb (has_value v1))) (
    chk 68 (let! v2 := (MinMaxTemperatureGroup_parse "101120084" RP_RMK md_default) in Ok (negb (has_value v2))) (
    chk 70 (let! v3 := (MinMaxTemperatureGroup_parse "201120084" RP_RMK md_default) in Ok (negb (has_value v3))) (
    chk 72 (let! v4 := (MinMaxTemperatureGroup_parse "301120084" RP_RMK md_default) in Ok (negb (has_value v4))) (
    chk 74 (let! v5 := (MinMaxTemperatureGroup_parse "501120084" RP_RMK md_default) in Ok (negb (has_value v5))) (
    chk 76 (let! v6 := (MinMaxTemperatureGroup_parse "601120084" RP_RMK md_default) in Ok (negb (has_value v6))) (
    chk 78 (let! v7 := (MinMaxTemperatureGroup_parse "701120084" RP_RMK md_default) in Ok (negb (has_value v7))) (
    chk 80 (let! v8 := (MinMaxTemperatureGroup_parse "801120084" RP_RMK md_default) in Ok (negb (has_value v8))) (
    chk 82 (let! v9 := (MinMaxTemperatureGroup_parse "901120084" RP_RMK md_default) in Ok (negb (has_value v9))) (
    chk 84 (let! v10 := (MinMaxTemperatureGroup_parse "A01120084" RP_RMK md_default) in Ok (negb (has_value v10))) (
    chk 86 (let! v11 := (MinMaxTemperatureGroup_parse "T01120084" RP_RMK md_default) in Ok (negb (has_value v11))) (
    chk 89 (let! v12 := (MinMaxTemperatureGroup_parse "4001120084" RP_RMK md_default) in Ok (negb (has_value v12))) (
    chk 91 (let! v13 := (MinMaxTemperatureGroup_parse "40120084" RP_RMK md_default) in Ok (negb (has_value v13))) (
    chk 93 (let! v14 := (MinMaxTemperatureGroup_parse "4A1120084" RP_RMK md_default) in Ok (negb (has_value v14))) (
    chk 95 (let! v15 := (MinMaxTemperatureGroup_parse "4011A0084" RP_RMK md_default) in Ok (negb (has_value v15))) (
    chk 97 (let! v16 := (MinMaxTemperatureGroup_parse "40112A084" RP_RMK md_default) in Ok (negb (has_value v16))) (
    chk 99 (let! v17 := (MinMaxTemperatureGroup_parse "40112008A" RP_RMK md_default) in Ok (negb (has_value v17))) (
    chk 102 (let! v18 := (MinMaxTemperatureGroup_parse "421120084" RP_RMK md_default) in Ok (negb (has_value v18))) (
    chk 104 (let! v19 := (MinMaxTemperatureGroup_parse "401122084" RP_RMK md_default) in Ok (negb (has_value v19))) (
    chk 106 (let! v20 := (MinMaxTemperatureGroup_parse "4////0084" RP_RMK md_default) in Ok (negb (has_value v20))) (
    chk 108 (let! v21 := (MinMaxTemperatureGroup_parse "40112////" RP_RMK md_default) in Ok (negb (has_value v21))) (
    chk 110 (let! v22 := (MinMaxTemperatureGroup_parse "4////////" RP_RMK md_default) in Ok (negb (has_value v22))) (
    None)))))))))))))))))))))).

Definition t_MinMaxTemperatureGroup_append24hourly : option N :=
    step 118 ((MinMaxTemperatureGroup_parse "401120084" RP_RMK md_default)) (fun v1 => 
    chk 120 (Ok (has_value v1)) (
    step 122 ((MinMaxTemperatureGroup_parse "401001015" RP_RMK md_default)) (fun v2 => 
    chk 124 (Ok (has_value v2)) (
    step 126 (let! v3 := deref v1 in MinMaxTemperatureGroup_append v3 "401001015" RP_RMK md_default) (fun p => let v4 := Some (fst p) in let v5 := snd p in 
    chk 126 (Ok (AppendResult_beq v5 NOT_APPENDED)) (
    step 128 (let! v6 := deref v2 in MinMaxTemperatureGroup_append v6 "401120084" RP_RMK md_default) (fun p => let v7 := Some (fst p) in let v8 := snd p in 
    chk 128 (Ok (AppendResult_beq v8 NOT_APPENDED)) (
    chk 131 (let! v9 := deref v4 in Ok (MmType_beq (mm_t v9) Mm_OBSERVED_24_HOURLY)) (
    chk 133 (let! v10 := deref v4 in Ok (Temperature_isReported (mm_minTemp v10))) (
    chk 134 (let! v11 := deref v4 in Ok (has_value (Temperature_temperature (mm_minTemp v11)))) (
    chk 135 (let! v12 := deref v4 in let! v13 := deref (Temperature_temperature (mm_minTemp v12)) in Ok (near v13 (dlit (42) 5) (dlit (1) 20))) (
    chk 136 (let! v14 := deref v4 in Ok (TempUnit_beq Temp_C Temp_C)) (
    chk 137 (let! v15 := deref v4 in Ok (Temperature_isReported (mm_maxTemp v15))) (
    chk 138 (let! v16 := deref v4 in Ok (has_value (Temperature_temperature (mm_maxTemp v16)))) (
    chk 139 (let! v17 := deref v4 in let! v18 := deref (Temperature_temperature (mm_maxTemp v17)) in Ok (near v18 (dlit (56) 5) (dlit (1) 20))) (
    chk 140 (let! v19 := deref v4 in Ok (TempUnit_beq Temp_C Temp_C)) (
    chk 141 (let! v20 := deref v4 in Ok (negb (has_value (mm_minTime v20)))) (
    chk 142 (let! v21 := deref v4 in Ok (negb (has_value (mm_maxTime v21)))) (
    chk 144 (let! v22 := deref v7 in Ok (MmType_beq (mm_t v22) Mm_OBSERVED_24_HOURLY)) (
    chk 146 (let! v23 := deref v7 in Ok (Temperature_isReported (mm_minTemp v23))) (
    chk 147 (let! v24 := deref v7 in Ok (has_value (Temperature_temperature (mm_minTemp v24)))) (
    chk 148 (let! v25 := deref v7 in let! v26 := deref (Temperature_temperature (mm_minTemp v25)) in Ok (near v26 (dlit (-3) 2) (dlit (1) 20))) (
    chk 149 (let! v27 := deref v7 in Ok (TempUnit_beq Temp_C Temp_C)) (
    chk 150 (let! v28 := deref v7 in Ok (Temperature_isReported (mm_maxTemp v28))) (
    chk 151 (let! v29 := deref v7 in Ok (has_value (Temperature_temperature (mm_maxTemp v29)))) (
    chk 152 (let! v30 := deref v7 in let! v31 := deref (Temperature_temperature (mm_maxTemp v30)) in Ok (near v31 (dlit (10) 1) (dlit (1) 20))) (
    chk 153 (let! v32 := deref v7 in Ok (TempUnit_beq Temp_C Temp_C)) (
    chk 154 (let! v33 := deref v7 in Ok (negb (has_value (mm_minTime v33)))) (
    chk 155 (let! v34 := deref v7 in Ok (negb (has_value (mm_maxTime v34)))) (
    None)))))))))))))))))))))))))))))).

Definition t_MinMaxTemperatureGroup_appendOtherTo24hourly : option N :=
    step 159 ((MinMaxTemperatureGroup_parse "401120084" RP_RMK md_default)) (fun v1 => 
    chk 161 (Ok (has_value v1)) (
    step 163 (let! v2 := deref v1 in MinMaxTemperatureGroup_append v2 "21001" RP_RMK md_default) (fun p => let v3 := Some (fst p) in let v4 := snd p in 
    chk 163 (Ok (AppendResult_beq v4 NOT_APPENDED)) (
    step 165 (let! v5 := deref v3 in MinMaxTemperatureGroup_append v5 "20012" RP_RMK md_default) (fun p => let v6 := Some (fst p) in let v7 := snd p in 
    chk 165 (Ok (AppendResult_beq v7 NOT_APPENDED)) (
    step 167 (let! v8 := deref v6 in MinMaxTemperatureGroup_append v8 "11021" RP_RMK md_default) (fun p => let v9 := Some (fst p) in let v10 := snd p in 
    chk 167 (Ok (AppendResult_beq v10 NOT_APPENDED)) (
    step 169 (let! v11 := deref v9 in MinMaxTemperatureGroup_append v11 "10142" RP_RMK md_default) (fun p => let v12 := Some (fst p) in let v13 := snd p in 
    chk 169 (Ok (AppendResult_beq v13 NOT_APPENDED)) (
    step 171 (let! v14 := deref v12 in MinMaxTemperatureGroup_append v14 "1////" RP_RMK md_default) (fun p => let v15 := Some (fst p) in let v16 := snd p in 
    chk 171 (Ok (AppendResult_beq v16 NOT_APPENDED)) (
    step 173 (let! v17 := deref v15 in MinMaxTemperatureGroup_append v17 "2////" RP_RMK md_default) (fun p => let v18 := Some (fst p) in let v19 := snd p in 
    chk 173 (Ok (AppendResult_beq v19 NOT_APPENDED)) (
    step 175 (let! v20 := deref v18 in MinMaxTemperatureGroup_append v20 "TN03/0620Z" RP_RMK md_default) (fun p => let v21 := Some (fst p) in let v22 := snd p in 
    chk 175 (Ok (AppendResult_beq v22 NOT_APPENDED)) (
    step 177 (let! v23 := deref v21 in MinMaxTemperatureGroup_append v23 "TNM03/0620Z" RP_RMK md_default) (fun p => let v24 := Some (fst p) in let v25 := snd p in 
    chk 177 (Ok (AppendResult_beq v25 NOT_APPENDED)) (
    step 179 (let! v26 := deref v24 in MinMaxTemperatureGroup_append v26 "TX03/0620Z" RP_RMK md_default) (fun p => let v27 := Some (fst p) in let v28 := snd p in 
    chk 179 (Ok (AppendResult_beq v28 NOT_APPENDED)) (
    step 181 (let! v29 := deref v27 in MinMaxTemperatureGroup_append v29 "TXM03/0620Z" RP_RMK md_default) (fun p => let v30 := Some (fst p) in let v31 := snd p in 
    chk 181 (Ok (AppendResult_beq v31 NOT_APPENDED)) (
    step 183 (let! v32 := deref v30 in MinMaxTemperatureGroup_append v32 "T03/0620Z" RP_RMK md_default) (fun p => let v33 := Some (fst p) in let v34 := snd p in 
    chk 183 (Ok (AppendResult_beq v34 NOT_APPENDED)) (
    step 185 (let! v35 := deref v33 in MinMaxTemperatureGroup_append v35 "TM03/0620Z" RP_RMK md_default) (fun p => let v36 := Some (fst p) in let v37 := snd p in 
    chk 185 (Ok (AppendResult_beq v37 NOT_APPENDED)) (
    step 187 (let! v38 := deref v36 in MinMaxTemperatureGroup_append v38 "MISG" RP_RMK md_default) (fun p => let v39 := Some (fst p) in let v40 := snd p in 
    chk 187 (Ok (AppendResult_beq v40 NOT_APPENDED)) (
    step 189 (let! v41 := deref v39 in MinMaxTemperatureGroup_append v41 "" RP_RMK md_default) (fun p => let v42 := Some (fst p) in let v43 := snd p in 
    chk 189 (Ok (AppendResult_beq v43 NOT_APPENDED)) (
    chk 192 (let! v44 := deref v42 in Ok (MmType_beq (mm_t v44) Mm_OBSERVED_24_HOURLY)) (
    chk 194 (let! v45 := deref v42 in Ok (Temperature_isReported (mm_minTemp v45))) (
    chk 195 (let! v46 := deref v42 in Ok (has_value (Temperature_temperature (mm_minTemp v46)))) (
    chk 196 (let! v47 := deref v42 in let! v48 := deref (Temperature_temperature (mm_minTemp v47)) in Ok (near v48 (dlit (42) 5) (dlit (1) 20))) (
    chk 197 (let! v49 := deref v42 in Ok (TempUnit_beq Temp_C Temp_C)) (
    chk 198 (let! v50 := deref v42 in Ok (Temperature_isReported (mm_maxTemp v50))) (
    chk 199 (let! v51 := deref v42 in Ok (has_value (Temperature_temperature (mm_maxTemp v51)))) (
    chk 200 (let! v52 := deref v42 in let! v53 := deref (Temperature_temperature (mm_maxTemp v52)) in Ok (near v53 (dlit (56) 5) (dlit (1) 20))) (
    chk 201 (let! v54 := deref v42 in Ok (TempUnit_beq Temp_C Temp_C)) (
    chk 202 (let! v55 := deref v42 in Ok (negb (has_value (mm_minTime v55)))) (
    chk 203 (let! v56 := deref v42 in Ok (negb (has_value (mm_maxTime v56)))) (
    None))))))))))))))))))))))))))))))))))))))))).

Definition t_MinMaxTemperatureGroup_parse6hourlyMinimum : option N :=
    step 214 ((MinMaxTemperatureGroup_parse "21001" RP_RMK md_default)) (fun v1 => 
    chk 216 (Ok (has_value v1)) (
    chk 217 (let! v2 := deref v1 in Ok (MmType_beq (mm_t v2) Mm_OBSERVED_6_HOURLY)) (
    chk 219 (let! v3 := deref v1 in Ok (Temperature_isReported (mm_minTemp v3))) (
    chk 220 (let! v4 := deref v1 in Ok (has_value (Temperature_temperature (mm_minTemp v4)))) (
    chk 221 (let! v5 := deref v1 in let! v6 := deref (Temperature_temperature (mm_minTemp v5)) in Ok (near v6 (dlit (-1) 10) (dlit (1) 20))) (
    chk 222 (let! v7 := deref v1 in Ok (TempUnit_beq Temp_C Temp_C)) (
    chk 223 (let! v8 := deref v1 in Ok (negb (Temperature_isReported (mm_maxTemp v8)))) (
    chk 224 (let! v9 := deref v1 in Ok (negb (has_value (mm_minTime v9)))) (
    chk 225 (let! v10 := deref v1 in Ok (negb (has_value (mm_maxTime v10)))) (
    step 227 ((MinMaxTemperatureGroup_parse "20012" RP_RMK md_default)) (fun v11 => 
    chk 229 (Ok (has_value v11)) (
    chk 230 (let! v12 := deref v11 in Ok (MmType_beq (mm_t v12) Mm_OBSERVED_6_HOURLY)) (
    chk 232 (let! v13 := deref v11 in Ok (Temperature_isReported (mm_minTemp v13))) (
    chk 233 (let! v14 := deref v11 in Ok (has_value (Temperature_temperature (mm_minTemp v14)))) (
    chk 234 (let! v15 := deref v11 in let! v16 := deref (Temperature_temperature (mm_minTemp v15)) in Ok (near v16 (dlit (6) 5) (dlit (1) 20))) (
    chk 235 (let! v17 := deref v11 in Ok (TempUnit_beq Temp_C Temp_C)) (
    chk 236 (let! v18 := deref v11 in Ok (negb (Temperature_isReported (mm_maxTemp v18)))) (
    chk 237 (let! v19 := deref v11 in Ok (negb (has_value (mm_minTime v19)))) (
    chk 238 (let! v20 := deref v11 in Ok (negb (has_value (mm_maxTime v20)))) (
    None)))))))))))))))))))).

Definition t_MinMaxTemperatureGroup_parse6hourlyMaximum : option N :=
    step 242 ((MinMaxTemperatureGroup_parse "11021" RP_RMK md_default)) (fun v1 => 
    chk 244 (Ok (has_value v1)) (
    chk 245 (let! v2 := deref v1 in Ok (MmType_beq (mm_t v2) Mm_OBSERVED_6_HOURLY)) (
    chk 247 (let! v3 := deref v1 in Ok (Temperature_isReported (mm_maxTemp v3))) (
    chk 248 (let! v4 := deref v1 in Ok (has_value (Temperature_temperature (mm_maxTemp v4)))) (
    chk 249 (let! v5 := deref v1 in let! v6 := deref (Temperature_temperature (mm_maxTemp v5)) in Ok (near v6 (dlit (-21) 10) (dlit (1) 20))) (
    chk 250 (let! v7 := deref v1 in Ok (TempUnit_beq Temp_C Temp_C)) (
    chk 251 (let! v8 := deref v1 in Ok (negb (Temperature_isReported (mm_minTemp v8)))) (
    chk 252 (let! v9 := deref v1 in Ok (negb (has_value (mm_minTime v9)))) (
    chk 253 (let! v10 := deref v1 in Ok (negb (has_value (mm_maxTime v10)))) (
    step 255 ((MinMaxTemperatureGroup_parse "10142" RP_RMK md_default)) (fun v11 => 
    chk 257 (Ok (has_value v11)) (
    chk 258 (let! v12 := deref v11 in Ok (MmType_beq (mm_t v12) Mm_OBSERVED_6_HOURLY)) (
    chk 260 (let! v13 := deref v11 in Ok (Temperature_isReported (mm_maxTemp v13))) (
    chk 261 (let! v14 := deref v11 in Ok (has_value (Temperature_temperature (mm_maxTemp v14)))) (
    chk 262 (let! v15 := deref v11 in let! v16 := deref (Temperature_temperature (mm_maxTemp v15)) in Ok (near v16 (dlit (71) 5) (dlit (1) 20))) (
    chk 263 (let! v17 := deref v11 in Ok (TempUnit_beq Temp_C Temp_C)) (
    chk 264 (let! v18 := deref v11 in Ok (negb (Temperature_isReported (mm_minTemp v18)))) (
    chk 265 (let! v19 := deref v11 in Ok (negb (has_value (mm_minTime v19)))) (
    chk 266 (let! v20 := deref v11 in Ok (negb (has_value (mm_maxTime v20)))) (
    None)))))))))))))))))))).

Definition t_MinMaxTemperatureGroup_parse6hourlyNotReported : option N :=
    step 270 ((MinMaxTemperatureGroup_parse "1////" RP_RMK md_default)) (fun v1 => 
    chk 272 (Ok (has_value v1)) (
    chk 273 (let! v2 := deref v1 in Ok (MmType_beq (mm_t v2) Mm_OBSERVED_6_HOURLY)) (
    chk 275 (let! v3 := deref v1 in Ok (negb (Temperature_isReported (mm_maxTemp v3)))) (
    chk 276 (let! v4 := deref v1 in Ok (negb (Temperature_isReported (mm_minTemp v4)))) (
    chk 277 (let! v5 := deref v1 in Ok (negb (has_value (mm_minTime v5)))) (
    chk 278 (let! v6 := deref v1 in Ok (negb (has_value (mm_maxTime v6)))) (
    step 280 ((MinMaxTemperatureGroup_parse "2////" RP_RMK md_default)) (fun v7 => 
    chk 282 (Ok (has_value v7)) (
    chk 283 (let! v8 := deref v7 in Ok (MmType_beq (mm_t v8) Mm_OBSERVED_6_HOURLY)) (
    chk 285 (let! v9 := deref v7 in Ok (negb (Temperature_isReported (mm_maxTemp v9)))) (
    chk 286 (let! v10 := deref v7 in Ok (negb (Temperature_isReported (mm_minTemp v10)))) (
    chk 287 (let! v11 := deref v7 in Ok (negb (has_value (mm_minTime v11)))) (
    chk 288 (let! v12 := deref v7 in Ok (negb (has_value (mm_maxTime v12)))) (
    None)))))))))))))).

Definition t_MinMaxTemperatureGroup_parse6hourlyWrongReportPart : option N :=
    chk 292 (let! v1 := (MinMaxTemperatureGroup_parse "20012" RP_UNKNOWN md_default) in Ok (negb (has_value v1))) (
    chk 294 (let! v2 := (MinMaxTemperatureGroup_parse "20012" RP_HEADER md_default) in Ok (negb (has_value v2))) (
    chk 296 (let! v3 := (MinMaxTemperatureGroup_parse "20012" RP_METAR md_default) in Ok (negb (has_value v3))) (
    chk 298 (let! v4 := (MinMaxTemperatureGroup_parse "20012" RP_TAF md_default) in Ok (negb (has_value v4))) (
    None)))).

Definition t_MinMaxTemperatureGroup_parse6hourlyWrongFormat : option N :=
    chk 303 (let! v1 := (MinMaxTemperatureGroup_parse "00142" RP_RMK md_default) in Ok (negb (has_value v1))) (
    chk 305 (let! v2 := (MinMaxTemperatureGroup_parse "30142" RP_RMK md_default) in Ok (negb (has_value v2))) (
    chk 307 (let! v3 := (MinMaxTemperatureGroup_parse "40142" RP_RMK md_default) in Ok (negb (has_value v3))) (
    chk 309 (let! v4 := (MinMaxTemperatureGroup_parse "50142" RP_RMK md_default) in Ok (negb (has_value v4))) (
    chk 311 (let! v5 := (MinMaxTemperatureGroup_parse "60142" RP_RMK md_default) in Ok (negb (has_value v5))) (
    chk 313 (let! v6 := (MinMaxTemperatureGroup_parse "70142" RP_RMK md_default) in Ok (negb (has_value v6))) (
    chk 315 (let! v7 := (MinMaxTemperatureGroup_parse "80142" RP_RMK md_default) in Ok (negb (has_value v7))) (
    chk 317 (let! v8 := (MinMaxTemperatureGroup_parse "90142" RP_RMK md_default) in Ok (negb (has_value v8))) (
    chk 319 (let! v9 := (MinMaxTemperatureGroup_parse "A0142" RP_RMK md_default) in Ok (negb (has_value v9))) (
    chk 322 (let! v10 := (MinMaxTemperatureGroup_parse "12142" RP_RMK md_default) in Ok (negb (has_value v10))) (
    chk 324 (let! v11 := (MinMaxTemperatureGroup_parse "13142" RP_RMK md_default) in Ok (negb (has_value v11))) (
    chk 326 (let! v12 := (MinMaxTemperatureGroup_parse "14142" RP_RMK md_default) in Ok (negb (has_value v12))) (
    chk 328 (let! v13 := (MinMaxTemperatureGroup_parse "15142" RP_RMK md_default) in Ok (negb (has_value v13))) (
    chk 330 (let! v14 := (MinMaxTemperatureGroup_parse "16142" RP_RMK md_default) in Ok (negb (has_value v14))) (
    chk 332 (let! v15 := (MinMaxTemperatureGroup_parse "17142" RP_RMK md_default) in Ok (negb (has_value v15))) (
    chk 334 (let! v16 := (MinMaxTemperatureGroup_parse "18142" RP_RMK md_default) in Ok (negb (has_value v16))) (
    chk 336 (let! v17 := (MinMaxTemperatureGroup_parse "19142" RP_RMK md_default) in Ok (negb (has_value v17))) (
    chk 338 (let! v18 := (MinMaxTemperatureGroup_parse "1A142" RP_RMK md_default) in Ok (negb (has_value v18))) (
    chk 341 (let! v19 := (MinMaxTemperatureGroup_parse "100142" RP_RMK md_default) in Ok (negb (has_value v19))) (
    chk 343 (let! v20 := (MinMaxTemperatureGroup_parse "1142" RP_RMK md_default) in Ok (negb (has_value v20))) (
    None)))))))))))))))))))).

Definition t_MinMaxTemperatureGroup_append6hourlyMinMax : option N :=
    step 351 ((MinMaxTemperatureGroup_parse "21001" RP_RMK md_default)) (fun v1 => 
    chk 353 (Ok (has_value v1)) (
    step 355 (let! v2 := deref v1 in MinMaxTemperatureGroup_append v2 "11021" RP_RMK md_default) (fun p => let v3 := Some (fst p) in let v4 := snd p in 
    chk 355 (Ok (AppendResult_beq v4 APPENDED)) (
    chk 358 (let! v5 := deref v3 in Ok (MmType_beq (mm_t v5) Mm_OBSERVED_6_HOURLY)) (
    chk 360 (let! v6 := deref v3 in Ok (Temperature_isReported (mm_maxTemp v6))) (
    chk 361 (let! v7 := deref v3 in Ok (has_value (Temperature_temperature (mm_maxTemp v7)))) (
    chk 362 (let! v8 := deref v3 in let! v9 := deref (Temperature_temperature (mm_maxTemp v8)) in Ok (near v9 (dlit (-21) 10) (dlit (1) 20))) (
    chk 363 (let! v10 := deref v3 in Ok (TempUnit_beq Temp_C Temp_C)) (
    chk 364 (let! v11 := deref v3 in Ok (Temperature_isReported (mm_maxTemp v11))) (
    chk 365 (let! v12 := deref v3 in Ok (has_value (Temperature_temperature (mm_minTemp v12)))) (
    chk 366 (let! v13 := deref v3 in let! v14 := deref (Temperature_temperature (mm_minTemp v13)) in Ok (near v14 (dlit (-1) 10) (dlit (1) 20))) (
    chk 367 (let! v15 := deref v3 in Ok (TempUnit_beq Temp_C Temp_C)) (
    chk 368 (let! v16 := deref v3 in Ok (negb (has_value (mm_minTime v16)))) (
    chk 369 (let! v17 := deref v3 in Ok (negb (has_value (mm_maxTime v17)))) (
    None))))))))))))))).

Definition t_MinMaxTemperatureGroup_append6hourlyMaxMin : option N :=
    step 376 ((MinMaxTemperatureGroup_parse "11021" RP_RMK md_default)) (fun v1 => 
    chk 378 (Ok (has_value v1)) (
    step 380 (let! v2 := deref v1 in MinMaxTemperatureGroup_append v2 "21001" RP_RMK md_default) (fun p => let v3 := Some (fst p) in let v4 := snd p in 
    chk 380 (Ok (AppendResult_beq v4 APPENDED)) (
    chk 383 (let! v5 := deref v3 in Ok (MmType_beq (mm_t v5) Mm_OBSERVED_6_HOURLY)) (
    chk 385 (let! v6 := deref v3 in Ok (Temperature_isReported (mm_maxTemp v6))) (
    chk 386 (let! v7 := deref v3 in Ok (has_value (Temperature_temperature (mm_maxTemp v7)))) (
    chk 387 (let! v8 := deref v3 in let! v9 := deref (Temperature_temperature (mm_maxTemp v8)) in Ok (near v9 (dlit (-21) 10) (dlit (1) 20))) (
    chk 388 (let! v10 := deref v3 in Ok (TempUnit_beq Temp_C Temp_C)) (
    chk 389 (let! v11 := deref v3 in Ok (Temperature_isReported (mm_minTemp v11))) (
    chk 390 (let! v12 := deref v3 in Ok (has_value (Temperature_temperature (mm_minTemp v12)))) (
    chk 391 (let! v13 := deref v3 in let! v14 := deref (Temperature_temperature (mm_minTemp v13)) in Ok (near v14 (dlit (-1) 10) (dlit (1) 20))) (
    chk 392 (let! v15 := deref v3 in Ok (TempUnit_beq Temp_C Temp_C)) (
    chk 393 (let! v16 := deref v3 in Ok (negb (has_value (mm_minTime v16)))) (
    chk 394 (let! v17 := deref v3 in Ok (negb (has_value (mm_maxTime v17)))) (
    None))))))))))))))).

Definition t_MinMaxTemperatureGroup_append6hourlyMinMin : option N :=
    step 401 ((MinMaxTemperatureGroup_parse "21001" RP_RMK md_default)) (fun v1 => 
    chk 403 (Ok (has_value v1)) (
    step 405 (let! v2 := deref v1 in MinMaxTemperatureGroup_append v2 "20012" RP_RMK md_default) (fun p => let v3 := Some (fst p) in let v4 := snd p in 
    chk 405 (Ok (AppendResult_beq v4 NOT_APPENDED)) (
    chk 408 (let! v5 := deref v3 in Ok (negb (Temperature_isReported (mm_maxTemp v5)))) (
    chk 409 (let! v6 := deref v3 in Ok (has_value (Temperature_temperature (mm_minTemp v6)))) (
    chk 410 (let! v7 := deref v3 in let! v8 := deref (Temperature_temperature (mm_minTemp v7)) in Ok (near v8 (dlit (-1) 10) (dlit (1) 20))) (
    chk 411 (let! v9 := deref v3 in Ok (TempUnit_beq Temp_C Temp_C)) (
    chk 412 (let! v10 := deref v3 in Ok (negb (has_value (mm_minTime v10)))) (
    chk 413 (let! v11 := deref v3 in Ok (negb (has_value (mm_maxTime v11)))) (
    None)))))))))).

Definition t_MinMaxTemperatureGroup_append6hourlyMaxMax : option N :=
    step 420 ((MinMaxTemperatureGroup_parse "11021" RP_RMK md_default)) (fun v1 => 
    chk 422 (Ok (has_value v1)) (
    step 424 (let! v2 := deref v1 in MinMaxTemperatureGroup_append v2 "10142" RP_RMK md_default) (fun p => let v3 := Some (fst p) in let v4 := snd p in 
    chk 424 (Ok (AppendResult_beq v4 NOT_APPENDED)) (
    chk 427 (let! v5 := deref v3 in Ok (negb (Temperature_isReported (mm_minTemp v5)))) (
    chk 428 (let! v6 := deref v3 in Ok (has_value (Temperature_temperature (mm_maxTemp v6)))) (
    chk 429 (let! v7 := deref v3 in let! v8 := deref (Temperature_temperature (mm_maxTemp v7)) in Ok (near v8 (dlit (-21) 10) (dlit (1) 20))) (
    chk 430 (let! v9 := deref v3 in Ok (TempUnit_beq Temp_C Temp_C)) (
    chk 431 (let! v10 := deref v3 in Ok (negb (has_value (mm_minTime v10)))) (
    chk 432 (let! v11 := deref v3 in Ok (negb (has_value (mm_maxTime v11)))) (
    None)))))))))).

Definition t_MinMaxTemperatureGroup_append6hourlyMinNotReportedMax : option N :=
    step 439 ((MinMaxTemperatureGroup_parse "2////" RP_RMK md_default)) (fun v1 => 
    chk 441 (Ok (has_value v1)) (
    step 443 (let! v2 := deref v1 in MinMaxTemperatureGroup_append v2 "11021" RP_RMK md_default) (fun p => let v3 := Some (fst p) in let v4 := snd p in 
    chk 443 (Ok (AppendResult_beq v4 APPENDED)) (
    chk 446 (let! v5 := deref v3 in Ok (MmType_beq (mm_t v5) Mm_OBSERVED_6_HOURLY)) (
    chk 448 (let! v6 := deref v3 in Ok (Temperature_isReported (mm_maxTemp v6))) (
    chk 449 (let! v7 := deref v3 in Ok (has_value (Temperature_temperature (mm_maxTemp v7)))) (
    chk 450 (let! v8 := deref v3 in let! v9 := deref (Temperature_temperature (mm_maxTemp v8)) in Ok (near v9 (dlit (-21) 10) (dlit (1) 20))) (
    chk 451 (let! v10 := deref v3 in Ok (TempUnit_beq Temp_C Temp_C)) (
    chk 452 (let! v11 := deref v3 in Ok (negb (Temperature_isReported (mm_minTemp v11)))) (
    chk 453 (let! v12 := deref v3 in Ok (negb (has_value (mm_minTime v12)))) (
    chk 454 (let! v13 := deref v3 in Ok (negb (has_value (mm_maxTime v13)))) (
    step 456 ((MinMaxTemperatureGroup_parse "11021" RP_RMK md_default)) (fun v14 => 
    chk 458 (Ok (has_value v14)) (
    step 460 (let! v15 := deref v14 in MinMaxTemperatureGroup_append v15 "2////" RP_RMK md_default) (fun p => let v16 := Some (fst p) in let v17 := snd p in 
    chk 460 (Ok (AppendResult_beq v17 APPENDED)) (
    chk 463 (let! v18 := deref v16 in Ok (MmType_beq (mm_t v18) Mm_OBSERVED_6_HOURLY)) (
    chk 465 (let! v19 := deref v16 in Ok (Temperature_isReported (mm_maxTemp v19))) (
    chk 466 (let! v20 := deref v16 in Ok (has_value (Temperature_temperature (mm_maxTemp v20)))) (
    chk 467 (let! v21 := deref v16 in let! v22 := deref (Temperature_temperature (mm_maxTemp v21)) in Ok (near v22 (dlit (-21) 10) (dlit (1) 20))) (
    chk 468 (let! v23 := deref v16 in Ok (TempUnit_beq Temp_C Temp_C)) (
    chk 469 (let! v24 := deref v16 in Ok (negb (Temperature_isReported (mm_minTemp v24)))) (
    chk 470 (let! v25 := deref v16 in Ok (negb (has_value (mm_minTime v25)))) (
    chk 471 (let! v26 := deref v16 in Ok (negb (has_value (mm_maxTime v26)))) (
    None)))))))))))))))))))))))).

Definition t_MinMaxTemperatureGroup_append6hourlyMinMaxNotRepoted : option N :=
    step 478 ((MinMaxTemperatureGroup_parse "21001" RP_RMK md_default)) (fun v1 => 
    chk 480 (Ok (has_value v1)) (
    step 482 (let! v2 := deref v1 in MinMaxTemperatureGroup_append v2 "1////" RP_RMK md_default) (fun p => let v3 := Some (fst p) in let v4 := snd p in 
    chk 482 (Ok (AppendResult_beq v4 APPENDED)) (
    chk 485 (let! v5 := deref v3 in Ok (MmType_beq (mm_t v5) Mm_OBSERVED_6_HOURLY)) (
    chk 487 (let! v6 := deref v3 in Ok (negb (Temperature_isReported (mm_maxTemp v6)))) (
    chk 488 (let! v7 := deref v3 in Ok (has_value (Temperature_temperature (mm_minTemp v7)))) (
    chk 489 (let! v8 := deref v3 in let! v9 := deref (Temperature_temperature (mm_minTemp v8)) in Ok (near v9 (dlit (-1) 10) (dlit (1) 20))) (
    chk 490 (let! v10 := deref v3 in Ok (TempUnit_beq Temp_C Temp_C)) (
    chk 491 (let! v11 := deref v3 in Ok (negb (has_value (mm_minTime v11)))) (
    chk 492 (let! v12 := deref v3 in Ok (negb (has_value (mm_maxTime v12)))) (
    step 494 ((MinMaxTemperatureGroup_parse "1////" RP_RMK md_default)) (fun v13 => 
    chk 496 (Ok (has_value v13)) (
    step 498 (let! v14 := deref v13 in MinMaxTemperatureGroup_append v14 "21001" RP_RMK md_default) (fun p => let v15 := Some (fst p) in let v16 := snd p in 
    chk 498 (Ok (AppendResult_beq v16 APPENDED)) (
    chk 501 (let! v17 := deref v15 in Ok (MmType_beq (mm_t v17) Mm_OBSERVED_6_HOURLY)) (
    chk 503 (let! v18 := deref v15 in Ok (negb (Temperature_isReported (mm_maxTemp v18)))) (
    chk 504 (let! v19 := deref v15 in Ok (Temperature_isReported (mm_minTemp v19))) (
    chk 505 (let! v20 := deref v15 in Ok (has_value (Temperature_temperature (mm_minTemp v20)))) (
    chk 506 (let! v21 := deref v15 in let! v22 := deref (Temperature_temperature (mm_minTemp v21)) in Ok (near v22 (dlit (-1) 10) (dlit (1) 20))) (
    chk 507 (let! v23 := deref v15 in Ok (TempUnit_beq Temp_C Temp_C)) (
    chk 508 (let! v24 := deref v15 in Ok (negb (has_value (mm_minTime v24)))) (
    chk 509 (let! v25 := deref v15 in Ok (negb (has_value (mm_maxTime v25)))) (
    None))))))))))))))))))))))).

Definition t_MinMaxTemperatureGroup_append6hourlyNotRepoted : option N :=
    step 516 ((MinMaxTemperatureGroup_parse "1////" RP_RMK md_default)) (fun v1 => 
    chk 518 (Ok (has_value v1)) (
    step 520 (let! v2 := deref v1 in MinMaxTemperatureGroup_append v2 "1////" RP_RMK md_default) (fun p => let v3 := Some (fst p) in let v4 := snd p in 
    chk 520 (Ok (AppendResult_beq v4 APPENDED)) (
    chk 523 (let! v5 := deref v3 in Ok (MmType_beq (mm_t v5) Mm_OBSERVED_6_HOURLY)) (
    chk 525 (let! v6 := deref v3 in Ok (negb (Temperature_isReported (mm_maxTemp v6)))) (
    chk 526 (let! v7 := deref v3 in Ok (negb (Temperature_isReported (mm_minTemp v7)))) (
    chk 527 (let! v8 := deref v3 in Ok (negb (has_value (mm_minTime v8)))) (
    chk 528 (let! v9 := deref v3 in Ok (negb (has_value (mm_maxTime v9)))) (
    step 530 ((MinMaxTemperatureGroup_parse "2////" RP_RMK md_default)) (fun v10 => 
    chk 532 (Ok (has_value v10)) (
    step 534 (let! v11 := deref v10 in MinMaxTemperatureGroup_append v11 "2////" RP_RMK md_default) (fun p => let v12 := Some (fst p) in let v13 := snd p in 
    chk 534 (Ok (AppendResult_beq v13 APPENDED)) (
    chk 537 (let! v14 := deref v12 in Ok (MmType_beq (mm_t v14) Mm_OBSERVED_6_HOURLY)) (
    chk 539 (let! v15 := deref v12 in Ok (negb (Temperature_isReported (mm_maxTemp v15)))) (
    chk 540 (let! v16 := deref v12 in Ok (negb (Temperature_isReported (mm_minTemp v16)))) (
    chk 541 (let! v17 := deref v12 in Ok (negb (has_value (mm_minTime v17)))) (
    chk 542 (let! v18 := deref v12 in Ok (negb (has_value (mm_maxTime v18)))) (
    None)))))))))))))))))).

Definition t_MinMaxTemperatureGroup_appendOtherTo6hourly : option N :=
    step 546 ((MinMaxTemperatureGroup_parse "21001" RP_RMK md_default)) (fun v1 => 
    chk 548 (Ok (has_value v1)) (
    step 550 (let! v2 := deref v1 in MinMaxTemperatureGroup_append v2 "401120084" RP_RMK md_default) (fun p => let v3 := Some (fst p) in let v4 := snd p in 
    chk 550 (Ok (AppendResult_beq v4 NOT_APPENDED)) (
    step 552 (let! v5 := deref v3 in MinMaxTemperatureGroup_append v5 "TN03/0620Z" RP_RMK md_default) (fun p => let v6 := Some (fst p) in let v7 := snd p in 
    chk 552 (Ok (AppendResult_beq v7 NOT_APPENDED)) (
    step 554 (let! v8 := deref v6 in MinMaxTemperatureGroup_append v8 "TNM03/0620Z" RP_RMK md_default) (fun p => let v9 := Some (fst p) in let v10 := snd p in 
    chk 554 (Ok (AppendResult_beq v10 NOT_APPENDED)) (
    step 556 (let! v11 := deref v9 in MinMaxTemperatureGroup_append v11 "TX03/0620Z" RP_RMK md_default) (fun p => let v12 := Some (fst p) in let v13 := snd p in 
    chk 556 (Ok (AppendResult_beq v13 NOT_APPENDED)) (
    step 558 (let! v14 := deref v12 in MinMaxTemperatureGroup_append v14 "TXM03/0620Z" RP_RMK md_default) (fun p => let v15 := Some (fst p) in let v16 := snd p in 
    chk 558 (Ok (AppendResult_beq v16 NOT_APPENDED)) (
    step 560 (let! v17 := deref v15 in MinMaxTemperatureGroup_append v17 "T03/0620Z" RP_RMK md_default) (fun p => let v18 := Some (fst p) in let v19 := snd p in 
    chk 560 (Ok (AppendResult_beq v19 NOT_APPENDED)) (
    step 562 (let! v20 := deref v18 in MinMaxTemperatureGroup_append v20 "TM03/0620Z" RP_RMK md_default) (fun p => let v21 := Some (fst p) in let v22 := snd p in 
    chk 562 (Ok (AppendResult_beq v22 NOT_APPENDED)) (
    step 564 (let! v23 := deref v21 in MinMaxTemperatureGroup_append v23 "MISG" RP_RMK md_default) (fun p => let v24 := Some (fst p) in let v25 := snd p in 
    chk 564 (Ok (AppendResult_beq v25 NOT_APPENDED)) (
    step 566 (let! v26 := deref v24 in MinMaxTemperatureGroup_append v26 "" RP_RMK md_default) (fun p => let v27 := Some (fst p) in let v28 := snd p in 
    chk 566 (Ok (AppendResult_beq v28 NOT_APPENDED)) (
    chk 569 (let! v29 := deref v27 in Ok (MmType_beq (mm_t v29) Mm_OBSERVED_6_HOURLY)) (
    chk 571 (let! v30 := deref v27 in Ok (Temperature_isReported (mm_minTemp v30))) (
    chk 572 (let! v31 := deref v27 in Ok (has_value (Temperature_temperature (mm_minTemp v31)))) (
    chk 573 (let! v32 := deref v27 in let! v33 := deref (Temperature_temperature (mm_minTemp v32)) in Ok (near v33 (dlit (-1) 10) (dlit (1) 20))) (
    chk 574 (let! v34 := deref v27 in Ok (TempUnit_beq Temp_C Temp_C)) (
    chk 575 (let! v35 := deref v27 in Ok (negb (Temperature_isReported (mm_maxTemp v35)))) (
    chk 576 (let! v36 := deref v27 in Ok (negb (has_value (mm_minTime v36)))) (
    chk 577 (let! v37 := deref v27 in Ok (negb (has_value (mm_maxTime v37)))) (
    step 579 ((MinMaxTemperatureGroup_parse "11021" RP_RMK md_default)) (fun v38 => 
    chk 581 (Ok (has_value v38)) (
    step 583 (let! v39 := deref v38 in MinMaxTemperatureGroup_append v39 "401120084" RP_RMK md_default) (fun p => let v40 := Some (fst p) in let v41 := snd p in 
    chk 583 (Ok (AppendResult_beq v41 NOT_APPENDED)) (
    step 585 (let! v42 := deref v40 in MinMaxTemperatureGroup_append v42 "TN03/0620Z" RP_RMK md_default) (fun p => let v43 := Some (fst p) in let v44 := snd p in 
    chk 585 (Ok (AppendResult_beq v44 NOT_APPENDED)) (
    step 587 (let! v45 := deref v43 in MinMaxTemperatureGroup_append v45 "TNM03/0620Z" RP_RMK md_default) (fun p => let v46 := Some (fst p) in let v47 := snd p in 
    chk 587 (Ok (AppendResult_beq v47 NOT_APPENDED)) (
    step 589 (let! v48 := deref v46 in MinMaxTemperatureGroup_append v48 "TX03/0620Z" RP_RMK md_default) (fun p => let v49 := Some (fst p) in let v50 := snd p in 
    chk 589 (Ok (AppendResult_beq v50 NOT_APPENDED)) (
    step 591 (let! v51 := deref v49 in MinMaxTemperatureGroup_append v51 "TXM03/0620Z" RP_RMK md_default) (fun p => let v52 := Some (fst p) in let v53 := snd p in 
    chk 591 (Ok (AppendResult_beq v53 NOT_APPENDED)) (
    step 593 (let! v54 := deref v52 in MinMaxTemperatureGroup_append v54 "T03/0620Z" RP_RMK md_default) (fun p => let v55 := Some (fst p) in let v56 := snd p in 
    chk 593 (Ok (AppendResult_beq v56 NOT_APPENDED)) (
    step 595 (let! v57 := deref v55 in MinMaxTemperatureGroup_append v57 "TM03/0620Z" RP_RMK md_default) (fun p => let v58 := Some (fst p) in let v59 := snd p in 
    chk 595 (Ok (AppendResult_beq v59 NOT_APPENDED)) (
    step 597 (let! v60 := deref v58 in MinMaxTemperatureGroup_append v60 "MISG" RP_RMK md_default) (fun p => let v61 := Some (fst p) in let v62 := snd p in 
    chk 597 (Ok (AppendResult_beq v62 NOT_APPENDED)) (
    step 599 (let! v63 := deref v61 in MinMaxTemperatureGroup_append v63 "" RP_RMK md_default) (fun p => let v64 := Some (fst p) in let v65 := snd p in 
    chk 599 (Ok (AppendResult_beq v65 NOT_APPENDED)) (
    chk 602 (let! v66 := deref v64 in Ok (MmType_beq (mm_t v66) Mm_OBSERVED_6_HOURLY)) (
    chk 604 (let! v67 := deref v64 in Ok (Temperature_isReported (mm_maxTemp v67))) (
    chk 605 (let! v68 := deref v64 in Ok (has_value (Temperature_temperature (mm_maxTemp v68)))) (
    chk 606 (let! v69 := deref v64 in let! v70 := deref (Temperature_temperature (mm_maxTemp v69)) in Ok (near v70 (dlit (-21) 10) (dlit (1) 20))) (
    chk 607 (let! v71 := deref v64 in Ok (TempUnit_beq Temp_C Temp_C)) (
    chk 608 (let! v72 := deref v64 in Ok (negb (Temperature_isReported (mm_minTemp v72)))) (
    chk 609 (let! v73 := deref v64 in Ok (negb (has_value (mm_minTime v73)))) (
    chk 610 (let! v74 := deref v64 in Ok (negb (has_value (mm_maxTime v74)))) (
    None)))))))))))))))))))))))))))))))))))))))))))))))))))))))).

Definition t_MinMaxTemperatureGroup_appendTo6hourlyMinMax : option N :=
    step 614 ((MinMaxTemperatureGroup_parse "11021" RP_RMK md_default)) (fun v1 => 
    chk 616 (Ok (has_value v1)) (
    step 617 (let! v2 := deref v1 in MinMaxTemperatureGroup_append v2 "21001" RP_RMK md_default) (fun p => let v3 := Some (fst p) in let v4 := snd p in 
    chk 617 (Ok (AppendResult_beq v4 APPENDED)) (
    step 620 (let! v5 := deref v3 in MinMaxTemperatureGroup_append v5 "21001" RP_RMK md_default) (fun p => let v6 := Some (fst p) in let v7 := snd p in 
    chk 620 (Ok (AppendResult_beq v7 NOT_APPENDED)) (
    step 622 (let! v8 := deref v6 in MinMaxTemperatureGroup_append v8 "20012" RP_RMK md_default) (fun p => let v9 := Some (fst p) in let v10 := snd p in 
    chk 622 (Ok (AppendResult_beq v10 NOT_APPENDED)) (
    step 624 (let! v11 := deref v9 in MinMaxTemperatureGroup_append v11 "11021" RP_RMK md_default) (fun p => let v12 := Some (fst p) in let v13 := snd p in 
    chk 624 (Ok (AppendResult_beq v13 NOT_APPENDED)) (
    step 626 (let! v14 := deref v12 in MinMaxTemperatureGroup_append v14 "10142" RP_RMK md_default) (fun p => let v15 := Some (fst p) in let v16 := snd p in 
    chk 626 (Ok (AppendResult_beq v16 NOT_APPENDED)) (
    step 628 (let! v17 := deref v15 in MinMaxTemperatureGroup_append v17 "1////" RP_RMK md_default) (fun p => let v18 := Some (fst p) in let v19 := snd p in 
    chk 628 (Ok (AppendResult_beq v19 NOT_APPENDED)) (
    step 630 (let! v20 := deref v18 in MinMaxTemperatureGroup_append v20 "2////" RP_RMK md_default) (fun p => let v21 := Some (fst p) in let v22 := snd p in 
    chk 630 (Ok (AppendResult_beq v22 NOT_APPENDED)) (
    step 632 (let! v23 := deref v21 in MinMaxTemperatureGroup_append v23 "TN03/0620Z" RP_RMK md_default) (fun p => let v24 := Some (fst p) in let v25 := snd p in 
    chk 632 (Ok (AppendResult_beq v25 NOT_APPENDED)) (
    step 634 (let! v26 := deref v24 in MinMaxTemperatureGroup_append v26 "TNM03/0620Z" RP_RMK md_default) (fun p => let v27 := Some (fst p) in let v28 := snd p in 
    chk 634 (Ok (AppendResult_beq v28 NOT_APPENDED)) (
    step 636 (let! v29 := deref v27 in MinMaxTemperatureGroup_append v29 "TX03/0620Z" RP_RMK md_default) (fun p => let v30 := Some (fst p) in let v31 := snd p in 
    chk 636 (Ok (AppendResult_beq v31 NOT_APPENDED)) (
    step 638 (let! v32 := deref v30 in MinMaxTemperatureGroup_append v32 "TXM03/0620Z" RP_RMK md_default) (fun p => let v33 := Some (fst p) in let v34 := snd p in 
    chk 638 (Ok (AppendResult_beq v34 NOT_APPENDED)) (
    step 640 (let! v35 := deref v33 in MinMaxTemperatureGroup_append v35 "T03/0620Z" RP_RMK md_default) (fun p => let v36 := Some (fst p) in let v37 := snd p in 
    chk 640 (Ok (AppendResult_beq v37 NOT_APPENDED)) (
    step 642 (let! v38 := deref v36 in MinMaxTemperatureGroup_append v38 "TM03/0620Z" RP_RMK md_default) (fun p => let v39 := Some (fst p) in let v40 := snd p in 
    chk 642 (Ok (AppendResult_beq v40 NOT_APPENDED)) (
    step 644 (let! v41 := deref v39 in MinMaxTemperatureGroup_append v41 "MISG" RP_RMK md_default) (fun p => let v42 := Some (fst p) in let v43 := snd p in 
    chk 644 (Ok (AppendResult_beq v43 NOT_APPENDED)) (
    step 646 (let! v44 := deref v42 in MinMaxTemperatureGroup_append v44 "" RP_RMK md_default) (fun p => let v45 := Some (fst p) in let v46 := snd p in 
    chk 646 (Ok (AppendResult_beq v46 NOT_APPENDED)) (
    chk 649 (let! v47 := deref v45 in Ok (MmType_beq (mm_t v47) Mm_OBSERVED_6_HOURLY)) (
    chk 651 (let! v48 := deref v45 in Ok (Temperature_isReported (mm_maxTemp v48))) (
    chk 652 (let! v49 := deref v45 in Ok (has_value (Temperature_temperature (mm_maxTemp v49)))) (
    chk 653 (let! v50 := deref v45 in let! v51 := deref (Temperature_temperature (mm_maxTemp v50)) in Ok (near v51 (dlit (-21) 10) (dlit (1) 20))) (
    chk 654 (let! v52 := deref v45 in Ok (TempUnit_beq Temp_C Temp_C)) (
    chk 655 (let! v53 := deref v45 in Ok (Temperature_isReported (mm_maxTemp v53))) (
    chk 656 (let! v54 := deref v45 in Ok (has_value (Temperature_temperature (mm_minTemp v54)))) (
    chk 657 (let! v55 := deref v45 in let! v56 := deref (Temperature_temperature (mm_minTemp v55)) in Ok (near v56 (dlit (-1) 10) (dlit (1) 20))) (
    chk 658 (let! v57 := deref v45 in Ok (TempUnit_beq Temp_C Temp_C)) (
    chk 659 (let! v58 := deref v45 in Ok (negb (has_value (mm_minTime v58)))) (
    chk 660 (let! v59 := deref v45 in Ok (negb (has_value (mm_maxTime v59)))) (
    None))))))))))))))))))))))))))))))))))))))))))).

Definition t_MinMaxTemperatureGroup_parseForecastMinimum : option N :=
    step 671 ((MinMaxTemperatureGroup_parse "TN03/0620Z" RP_TAF md_default)) (fun v1 => 
    chk 673 (Ok (has_value v1)) (
    chk 674 (let! v2 := deref v1 in Ok (MmType_beq (mm_t v2) Mm_FORECAST)) (
    chk 675 (let! v3 := deref v1 in Ok (Temperature_isReported (mm_minTemp v3))) (
    chk 676 (let! v4 := deref v1 in Ok (has_value (Temperature_temperature (mm_minTemp v4)))) (
    chk 677 (let! v5 := deref v1 in let! v6 := deref (Temperature_temperature (mm_minTemp v5)) in Ok (near v6 (dlit (3) 1) (dlit (1) 20))) (
    chk 678 (let! v7 := deref v1 in Ok (TempUnit_beq Temp_C Temp_C)) (
    chk 679 (let! v8 := deref v1 in Ok (has_value (mm_minTime v8))) (
    chk 680 (let! v9 := deref v1 in let! v10 := deref (mm_minTime v9) in Ok (has_value (dayValue v10))) (
    chk 681 (let! v11 := deref v1 in let! v12 := deref (mm_minTime v11) in let! v13 := deref (dayValue v12) in Ok (N.eqb v13 6%N)) (
    chk 682 (let! v14 := deref v1 in let! v15 := deref (mm_minTime v14) in Ok (N.eqb (hourValue v15) 20%N)) (
    chk 683 (let! v16 := deref v1 in let! v17 := deref (mm_minTime v16) in Ok (N.eqb (minuteValue v17) 0%N)) (
    chk 684 (let! v18 := deref v1 in Ok (negb (Temperature_isReported (mm_maxTemp v18)))) (
    chk 685 (let! v19 := deref v1 in Ok (negb (has_value (mm_maxTime v19)))) (
    step 687 ((MinMaxTemperatureGroup_parse "TNM23/0617Z" RP_TAF md_default)) (fun v20 => 
    chk 689 (Ok (has_value v20)) (
    chk 690 (let! v21 := deref v20 in Ok (MmType_beq (mm_t v21) Mm_FORECAST)) (
    chk 691 (let! v22 := deref v20 in Ok (Temperature_isReported (mm_minTemp v22))) (
    chk 692 (let! v23 := deref v20 in Ok (has_value (Temperature_temperature (mm_minTemp v23)))) (
    chk 693 (let! v24 := deref v20 in let! v25 := deref (Temperature_temperature (mm_minTemp v24)) in Ok (near v25 (dlit (-23) 1) (dlit (1) 20))) (
    chk 694 (let! v26 := deref v20 in Ok (TempUnit_beq Temp_C Temp_C)) (
    chk 695 (let! v27 := deref v20 in Ok (has_value (mm_minTime v27))) (
    chk 696 (let! v28 := deref v20 in let! v29 := deref (mm_minTime v28) in Ok (has_value (dayValue v29))) (
    chk 697 (let! v30 := deref v20 in let! v31 := deref (mm_minTime v30) in let! v32 := deref (dayValue v31) in Ok (N.eqb v32 6%N)) (
    chk 698 (let! v33 := deref v20 in let! v34 := deref (mm_minTime v33) in Ok (N.eqb (hourValue v34) 17%N)) (
    chk 699 (let! v35 := deref v20 in let! v36 := deref (mm_minTime v35) in Ok (N.eqb (minuteValue v36) 0%N)) (
    chk 700 (let! v37 := deref v20 in Ok (negb (Temperature_isReported (mm_maxTemp v37)))) (
    chk 701 (let! v38 := deref v20 in Ok (negb (has_value (mm_maxTime v38)))) (
    None)))))))))))))))))))))))))))).

Definition t_MinMaxTemperatureGroup_parseForecastMaximum : option N :=
    step 705 ((MinMaxTemperatureGroup_parse "TX03/0620Z" RP_TAF md_default)) (fun v1 => 
    chk 707 (Ok (has_value v1)) (
    chk 708 (let! v2 := deref v1 in Ok (MmType_beq (mm_t v2) Mm_FORECAST)) (
    chk 709 (let! v3 := deref v1 in Ok (Temperature_isReported (mm_maxTemp v3))) (
    chk 710 (let! v4 := deref v1 in Ok (has_value (Temperature_temperature (mm_maxTemp v4)))) (
    chk 711 (let! v5 := deref v1 in let! v6 := deref (Temperature_temperature (mm_maxTemp v5)) in Ok (near v6 (dlit (3) 1) (dlit (1) 20))) (
    chk 712 (let! v7 := deref v1 in Ok (TempUnit_beq Temp_C Temp_C)) (
    chk 713 (let! v8 := deref v1 in Ok (has_value (mm_maxTime v8))) (
    chk 714 (let! v9 := deref v1 in let! v10 := deref (mm_maxTime v9) in Ok (has_value (dayValue v10))) (
    chk 715 (let! v11 := deref v1 in let! v12 := deref (mm_maxTime v11) in let! v13 := deref (dayValue v12) in Ok (N.eqb v13 6%N)) (
    chk 716 (let! v14 := deref v1 in let! v15 := deref (mm_maxTime v14) in Ok (N.eqb (hourValue v15) 20%N)) (
    chk 717 (let! v16 := deref v1 in let! v17 := deref (mm_maxTime v16) in Ok (N.eqb (minuteValue v17) 0%N)) (
    chk 718 (let! v18 := deref v1 in Ok (negb (Temperature_isReported (mm_minTemp v18)))) (
    chk 719 (let! v19 := deref v1 in Ok (negb (has_value (mm_minTime v19)))) (
    step 721 ((MinMaxTemperatureGroup_parse "TXM23/0617Z" RP_TAF md_default)) (fun v20 => 
    chk 723 (Ok (has_value v20)) (
    chk 724 (let! v21 := deref v20 in Ok (MmType_beq (mm_t v21) Mm_FORECAST)) (
    chk 725 (let! v22 := deref v20 in Ok (Temperature_isReported (mm_maxTemp v22))) (
    chk 726 (let! v23 := deref v20 in Ok (has_value (Temperature_temperature (mm_maxTemp v23)))) (
    chk 727 (let! v24 := deref v20 in let! v25 := deref (Temperature_temperature (mm_maxTemp v24)) in Ok (near v25 (dlit (-23) 1) (dlit (1) 20))) (
    chk 728 (let! v26 := deref v20 in Ok (TempUnit_beq Temp_C Temp_C)) (
    chk 729 (let! v27 := deref v20 in Ok (has_value (mm_maxTime v27))) (
    chk 730 (let! v28 := deref v20 in let! v29 := deref (mm_maxTime v28) in Ok (has_value (dayValue v29))) (
    chk 731 (let! v30 := deref v20 in let! v31 := deref (mm_maxTime v30) in let! v32 := deref (dayValue v31) in Ok (N.eqb v32 6%N)) (
    chk 732 (let! v33 := deref v20 in let! v34 := deref (mm_maxTime v33) in Ok (N.eqb (hourValue v34) 17%N)) (
    chk 733 (let! v35 := deref v20 in let! v36 := deref (mm_maxTime v35) in Ok (N.eqb (minuteValue v36) 0%N)) (
    chk 734 (let! v37 := deref v20 in Ok (negb (Temperature_isReported (mm_minTemp v37)))) (
    chk 735 (let! v38 := deref v20 in Ok (negb (has_value (mm_minTime v38)))) (
    None)))))))))))))))))))))))))))).

Definition t_MinMaxTemperatureGroup_parseForecastUnspesified : option N :=
    step 739 ((MinMaxTemperatureGroup_parse "T24/1306Z" RP_TAF md_default)) (fun v1 => 
    chk 741 (Ok (has_value v1)) (
    chk 742 (let! v2 := deref v1 in Ok (MmType_beq (mm_t v2) Mm_FORECAST)) (
    chk 743 (let! v3 := deref v1 in Ok (Temperature_isReported (mm_minTemp v3))) (
    chk 744 (let! v4 := deref v1 in Ok (has_value (Temperature_temperature (mm_minTemp v4)))) (
    chk 745 (let! v5 := deref v1 in let! v6 := deref (Temperature_temperature (mm_minTemp v5)) in Ok (near v6 (dlit (24) 1) (dlit (1) 20))) (
    chk 746 (let! v7 := deref v1 in Ok (TempUnit_beq Temp_C Temp_C)) (
    chk 747 (let! v8 := deref v1 in Ok (has_value (mm_minTime v8))) (
    chk 748 (let! v9 := deref v1 in let! v10 := deref (mm_minTime v9) in Ok (has_value (dayValue v10))) (
    chk 749 (let! v11 := deref v1 in let! v12 := deref (mm_minTime v11) in let! v13 := deref (dayValue v12) in Ok (N.eqb v13 13%N)) (
    chk 750 (let! v14 := deref v1 in let! v15 := deref (mm_minTime v14) in Ok (N.eqb (hourValue v15) 6%N)) (
    chk 751 (let! v16 := deref v1 in let! v17 := deref (mm_minTime v16) in Ok (N.eqb (minuteValue v17) 0%N)) (
    chk 752 (let! v18 := deref v1 in Ok (Temperature_isReported (mm_maxTemp v18))) (
    chk 753 (let! v19 := deref v1 in Ok (has_value (Temperature_temperature (mm_maxTemp v19)))) (
    chk 754 (let! v20 := deref v1 in let! v21 := deref (Temperature_temperature (mm_maxTemp v20)) in Ok (near v21 (dlit (24) 1) (dlit (1) 20))) (
    chk 755 (let! v22 := deref v1 in Ok (TempUnit_beq Temp_C Temp_C)) (
    chk 756 (let! v23 := deref v1 in Ok (has_value (mm_maxTime v23))) (
    chk 757 (let! v24 := deref v1 in let! v25 := deref (mm_maxTime v24) in Ok (has_value (dayValue v25))) (
    chk 758 (let! v26 := deref v1 in let! v27 := deref (mm_maxTime v26) in let! v28 := deref (dayValue v27) in Ok (N.eqb v28 13%N)) (
    chk 759 (let! v29 := deref v1 in let! v30 := deref (mm_maxTime v29) in Ok (N.eqb (hourValue v30) 6%N)) (
    chk 760 (let! v31 := deref v1 in let! v32 := deref (mm_maxTime v31) in Ok (N.eqb (minuteValue v32) 0%N)) (
    step 762 ((MinMaxTemperatureGroup_parse "TM03/0911Z" RP_TAF md_default)) (fun v33 => 
    chk 764 (Ok (has_value v33)) (
    chk 765 (let! v34 := deref v33 in Ok (MmType_beq (mm_t v34) Mm_FORECAST)) (
    chk 766 (let! v35 := deref v33 in Ok (Temperature_isReported (mm_maxTemp v35))) (
    chk 767 (let! v36 := deref v33 in Ok (has_value (Temperature_temperature (mm_maxTemp v36)))) (
    chk 768 (let! v37 := deref v33 in let! v38 := deref (Temperature_temperature (mm_maxTemp v37)) in Ok (near v38 (dlit (-3) 1) (dlit (1) 20))) (
    chk 769 (let! v39 := deref v33 in Ok (TempUnit_beq Temp_C Temp_C)) (
    chk 770 (let! v40 := deref v33 in Ok (has_value (mm_maxTime v40))) (
    chk 771 (let! v41 := deref v33 in let! v42 := deref (mm_maxTime v41) in Ok (has_value (dayValue v42))) (
    chk 772 (let! v43 := deref v33 in let! v44 := deref (mm_maxTime v43) in let! v45 := deref (dayValue v44) in Ok (N.eqb v45 9%N)) (
    chk 773 (let! v46 := deref v33 in let! v47 := deref (mm_maxTime v46) in Ok (N.eqb (hourValue v47) 11%N)) (
    chk 774 (let! v48 := deref v33 in let! v49 := deref (mm_maxTime v48) in Ok (N.eqb (minuteValue v49) 0%N)) (
    chk 775 (let! v50 := deref v33 in Ok (Temperature_isReported (mm_minTemp v50))) (
    chk 776 (let! v51 := deref v33 in Ok (has_value (Temperature_temperature (mm_minTemp v51)))) (
    chk 777 (let! v52 := deref v33 in let! v53 := deref (Temperature_temperature (mm_minTemp v52)) in Ok (near v53 (dlit (-3) 1) (dlit (1) 20))) (
    chk 778 (let! v54 := deref v33 in Ok (TempUnit_beq Temp_C Temp_C)) (
    chk 779 (let! v55 := deref v33 in Ok (has_value (mm_minTime v55))) (
    chk 780 (let! v56 := deref v33 in let! v57 := deref (mm_minTime v56) in Ok (has_value (dayValue v57))) (
    chk 781 (let! v58 := deref v33 in let! v59 := deref (mm_minTime v58) in let! v60 := deref (dayValue v59) in Ok (N.eqb v60 9%N)) (
    chk 782 (let! v61 := deref v33 in let! v62 := deref (mm_minTime v61) in Ok (N.eqb (hourValue v62) 11%N)) (
    chk 783 (let! v63 := deref v33 in let! v64 := deref (mm_minTime v63) in Ok (N.eqb (minuteValue v64) 0%N)) (
    None)))))))))))))))))))))))))))))))))))))))))).

Definition t_MinMaxTemperatureGroup_parseForecastWrongReportPart : option N :=
    chk 787 (let! v1 := (MinMaxTemperatureGroup_parse "TN03/0620Z" RP_UNKNOWN md_default) in Ok (negb (has_value v1))) (
    chk 789 (let! v2 := (MinMaxTemperatureGroup_parse "TN03/0620Z" RP_HEADER md_default) in Ok (negb (has_value v2))) (
    chk 791 (let! v3 := (MinMaxTemperatureGroup_parse "TN03/0620Z" RP_METAR md_default) in Ok (negb (has_value v3))) (
    chk 793 (let! v4 := (MinMaxTemperatureGroup_parse "TN03/0620Z" RP_RMK md_default) in Ok (negb (has_value v4))) (
    None)))).

Definition t_MinMaxTemperatureGroup_parseForecastWrongFormat : option N :=
    chk 798 (let! v1 := (MinMaxTemperatureGroup_parse "TZ03/0620Z" RP_TAF md_default) in Ok (negb (has_value v1))) (
    chk 800 (let! v2 := (MinMaxTemperatureGroup_parse "X03/0620Z" RP_TAF md_default) in Ok (negb (has_value v2))) (
    chk 803 (let! v3 := (MinMaxTemperatureGroup_parse "TN003/0620Z" RP_TAF md_default) in Ok (negb (has_value v3))) (
    chk 805 (let! v4 := (MinMaxTemperatureGroup_parse "TN3/0620Z" RP_TAF md_default) in Ok (negb (has_value v4))) (
    chk 807 (let! v5 := (MinMaxTemperatureGroup_parse "TN03/00620Z" RP_TAF md_default) in Ok (negb (has_value v5))) (
    chk 809 (let! v6 := (MinMaxTemperatureGroup_parse "TN03/620Z" RP_TAF md_default) in Ok (negb (has_value v6))) (
    chk 811 (let! v7 := (MinMaxTemperatureGroup_parse "TN03/0620" RP_TAF md_default) in Ok (negb (has_value v7))) (
    chk 813 (let! v8 := (MinMaxTemperatureGroup_parse "TN03/0620T" RP_TAF md_default) in Ok (negb (has_value v8))) (
    chk 815 (let! v9 := (MinMaxTemperatureGroup_parse "NN03/0620Z" RP_TAF md_default) in Ok (negb (has_value v9))) (
    chk 817 (let! v10 := (MinMaxTemperatureGroup_parse "TN0A/0620Z" RP_TAF md_default) in Ok (negb (has_value v10))) (
    chk 819 (let! v11 := (MinMaxTemperatureGroup_parse "TN03/060AZ" RP_TAF md_default) in Ok (negb (has_value v11))) (
    chk 821 (let! v12 := (MinMaxTemperatureGroup_parse "TN///0620Z" RP_TAF md_default) in Ok (negb (has_value v12))) (
    chk 823 (let! v13 := (MinMaxTemperatureGroup_parse "TN03/////Z" RP_TAF md_default) in Ok (negb (has_value v13))) (
    chk 826 (let! v14 := (MinMaxTemperatureGroup_parse "TX003/0620Z" RP_TAF md_default) in Ok (negb (has_value v14))) (
    chk 828 (let! v15 := (MinMaxTemperatureGroup_parse "TX3/0620Z" RP_TAF md_default) in Ok (negb (has_value v15))) (
    chk 830 (let! v16 := (MinMaxTemperatureGroup_parse "TX03/00620Z" RP_TAF md_default) in Ok (negb (has_value v16))) (
    chk 832 (let! v17 := (MinMaxTemperatureGroup_parse "TX03/620Z" RP_TAF md_default) in Ok (negb (has_value v17))) (
    chk 834 (let! v18 := (MinMaxTemperatureGroup_parse "TX03/0620" RP_TAF md_default) in Ok (negb (has_value v18))) (
    chk 836 (let! v19 := (MinMaxTemperatureGroup_parse "TX03/0620T" RP_TAF md_default) in Ok (negb (has_value v19))) (
    chk 838 (let! v20 := (MinMaxTemperatureGroup_parse "NX03/0620Z" RP_TAF md_default) in Ok (negb (has_value v20))) (
    chk 840 (let! v21 := (MinMaxTemperatureGroup_parse "TX0A/0620Z" RP_TAF md_default) in Ok (negb (has_value v21))) (
    chk 842 (let! v22 := (MinMaxTemperatureGroup_parse "TX03/060AZ" RP_TAF md_default) in Ok (negb (has_value v22))) (
    chk 844 (let! v23 := (MinMaxTemperatureGroup_parse "TX///0620Z" RP_TAF md_default) in Ok (negb (has_value v23))) (
    chk 846 (let! v24 := (MinMaxTemperatureGroup_parse "TX03/////Z" RP_TAF md_default) in Ok (negb (has_value v24))) (
    chk 849 (let! v25 := (MinMaxTemperatureGroup_parse "T003/0620Z" RP_TAF md_default) in Ok (negb (has_value v25))) (
    chk 851 (let! v26 := (MinMaxTemperatureGroup_parse "T3/0620Z" RP_TAF md_default) in Ok (negb (has_value v26))) (
    chk 853 (let! v27 := (MinMaxTemperatureGroup_parse "T03/00620Z" RP_TAF md_default) in Ok (negb (has_value v27))) (
    chk 855 (let! v28 := (MinMaxTemperatureGroup_parse "T03/620Z" RP_TAF md_default) in Ok (negb (has_value v28))) (
    chk 857 (let! v29 := (MinMaxTemperatureGroup_parse "T03/0620" RP_TAF md_default) in Ok (negb (has_value v29))) (
    chk 859 (let! v30 := (MinMaxTemperatureGroup_parse "T03/0620T" RP_TAF md_default) in Ok (negb (has_value v30))) (
    chk 861 (let! v31 := (MinMaxTemperatureGroup_parse "T0A/0620Z" RP_TAF md_default) in Ok (negb (has_value v31))) (
    chk 863 (let! v32 := (MinMaxTemperatureGroup_parse "T03/060AZ" RP_TAF md_default) in Ok (negb (has_value v32))) (
    chk 865 (let! v33 := (MinMaxTemperatureGroup_parse "T///0620Z" RP_TAF md_default) in Ok (negb (has_value v33))) (
    chk 867 (let! v34 := (MinMaxTemperatureGroup_parse "T03/////Z" RP_TAF md_default) in Ok (negb (has_value v34))) (
    None)))))))))))))))))))))))))))))))))).

Definition t_MinMaxTemperatureGroup_appendForecastMinMax : option N :=
    step 875 ((MinMaxTemperatureGroup_parse "TNM02/0709Z" RP_TAF md_default)) (fun v1 => 
    chk 876 (Ok (has_value v1)) (
    step 878 (let! v2 := deref v1 in MinMaxTemperatureGroup_append v2 "TX03/0620Z" RP_TAF md_default) (fun p => let v3 := Some (fst p) in let v4 := snd p in 
    chk 878 (Ok (AppendResult_beq v4 APPENDED)) (
    chk 881 (let! v5 := deref v3 in Ok (MmType_beq (mm_t v5) Mm_FORECAST)) (
    chk 882 (let! v6 := deref v3 in Ok (Temperature_isReported (mm_maxTemp v6))) (
    chk 883 (let! v7 := deref v3 in Ok (has_value (Temperature_temperature (mm_maxTemp v7)))) (
    chk 884 (let! v8 := deref v3 in let! v9 := deref (Temperature_temperature (mm_maxTemp v8)) in Ok (near v9 (dlit (3) 1) (dlit (1) 20))) (
    chk 885 (let! v10 := deref v3 in Ok (TempUnit_beq Temp_C Temp_C)) (
    chk 886 (let! v11 := deref v3 in Ok (has_value (mm_maxTime v11))) (
    chk 887 (let! v12 := deref v3 in let! v13 := deref (mm_maxTime v12) in Ok (has_value (dayValue v13))) (
    chk 888 (let! v14 := deref v3 in let! v15 := deref (mm_maxTime v14) in let! v16 := deref (dayValue v15) in Ok (N.eqb v16 6%N)) (
    chk 889 (let! v17 := deref v3 in let! v18 := deref (mm_maxTime v17) in Ok (N.eqb (hourValue v18) 20%N)) (
    chk 890 (let! v19 := deref v3 in let! v20 := deref (mm_maxTime v19) in Ok (N.eqb (minuteValue v20) 0%N)) (
    chk 891 (let! v21 := deref v3 in Ok (Temperature_isReported (mm_maxTemp v21))) (
    chk 892 (let! v22 := deref v3 in Ok (has_value (Temperature_temperature (mm_minTemp v22)))) (
    chk 893 (let! v23 := deref v3 in let! v24 := deref (Temperature_temperature (mm_minTemp v23)) in Ok (near v24 (dlit (-2) 1) (dlit (1) 20))) (
    chk 894 (let! v25 := deref v3 in Ok (TempUnit_beq Temp_C Temp_C)) (
    chk 895 (let! v26 := deref v3 in Ok (has_value (mm_minTime v26))) (
    chk 896 (let! v27 := deref v3 in let! v28 := deref (mm_minTime v27) in Ok (has_value (dayValue v28))) (
    chk 897 (let! v29 := deref v3 in let! v30 := deref (mm_minTime v29) in let! v31 := deref (dayValue v30) in Ok (N.eqb v31 7%N)) (
    chk 898 (let! v32 := deref v3 in let! v33 := deref (mm_minTime v32) in Ok (N.eqb (hourValue v33) 9%N)) (
    chk 899 (let! v34 := deref v3 in let! v35 := deref (mm_minTime v34) in Ok (N.eqb (minuteValue v35) 0%N)) (
    None))))))))))))))))))))))).

Definition t_MinMaxTemperatureGroup_appendForecastMaxMin : option N :=
    step 906 ((MinMaxTemperatureGroup_parse "TX03/0620Z" RP_TAF md_default)) (fun v1 => 
    chk 907 (Ok (has_value v1)) (
    step 909 (let! v2 := deref v1 in MinMaxTemperatureGroup_append v2 "TNM02/0709Z" RP_TAF md_default) (fun p => let v3 := Some (fst p) in let v4 := snd p in 
    chk 909 (Ok (AppendResult_beq v4 APPENDED)) (
    chk 912 (let! v5 := deref v3 in Ok (MmType_beq (mm_t v5) Mm_FORECAST)) (
    chk 913 (let! v6 := deref v3 in Ok (Temperature_isReported (mm_maxTemp v6))) (
    chk 914 (let! v7 := deref v3 in Ok (has_value (Temperature_temperature (mm_maxTemp v7)))) (
    chk 915 (let! v8 := deref v3 in let! v9 := deref (Temperature_temperature (mm_maxTemp v8)) in Ok (near v9 (dlit (3) 1) (dlit (1) 20))) (
    chk 916 (let! v10 := deref v3 in Ok (TempUnit_beq Temp_C Temp_C)) (
    chk 917 (let! v11 := deref v3 in Ok (has_value (mm_maxTime v11))) (
    chk 918 (let! v12 := deref v3 in let! v13 := deref (mm_maxTime v12) in Ok (has_value (dayValue v13))) (
    chk 919 (let! v14 := deref v3 in let! v15 := deref (mm_maxTime v14) in let! v16 := deref (dayValue v15) in Ok (N.eqb v16 6%N)) (
    chk 920 (let! v17 := deref v3 in let! v18 := deref (mm_maxTime v17) in Ok (N.eqb (hourValue v18) 20%N)) (
    chk 921 (let! v19 := deref v3 in let! v20 := deref (mm_maxTime v19) in Ok (N.eqb (minuteValue v20) 0%N)) (
    chk 922 (let! v21 := deref v3 in Ok (Temperature_isReported (mm_maxTemp v21))) (
    chk 923 (let! v22 := deref v3 in Ok (has_value (Temperature_temperature (mm_minTemp v22)))) (
    chk 924 (let! v23 := deref v3 in let! v24 := deref (Temperature_temperature (mm_minTemp v23)) in Ok (near v24 (dlit (-2) 1) (dlit (1) 20))) (
    chk 925 (let! v25 := deref v3 in Ok (TempUnit_beq Temp_C Temp_C)) (
    chk 926 (let! v26 := deref v3 in Ok (has_value (mm_minTime v26))) (
    chk 927 (let! v27 := deref v3 in let! v28 := deref (mm_minTime v27) in Ok (has_value (dayValue v28))) (
    chk 928 (let! v29 := deref v3 in let! v30 := deref (mm_minTime v29) in let! v31 := deref (dayValue v30) in Ok (N.eqb v31 7%N)) (
    chk 929 (let! v32 := deref v3 in let! v33 := deref (mm_minTime v32) in Ok (N.eqb (hourValue v33) 9%N)) (
    chk 930 (let! v34 := deref v3 in let! v35 := deref (mm_minTime v34) in Ok (N.eqb (minuteValue v35) 0%N)) (
    None))))))))))))))))))))))).

Definition t_MinMaxTemperatureGroup_appendForecastMaxMax : option N :=
    step 934 ((MinMaxTemperatureGroup_parse "TX03/0620Z" RP_TAF md_default)) (fun v1 => 
    chk 935 (Ok (has_value v1)) (
    step 937 (let! v2 := deref v1 in MinMaxTemperatureGroup_append v2 "TX05/0623Z" RP_TAF md_default) (fun p => let v3 := Some (fst p) in let v4 := snd p in 
    chk 937 (Ok (AppendResult_beq v4 NOT_APPENDED)) (
    chk 940 (let! v5 := deref v3 in Ok (MmType_beq (mm_t v5) Mm_FORECAST)) (
    chk 941 (let! v6 := deref v3 in Ok (Temperature_isReported (mm_maxTemp v6))) (
    chk 942 (let! v7 := deref v3 in Ok (has_value (Temperature_temperature (mm_maxTemp v7)))) (
    chk 943 (let! v8 := deref v3 in let! v9 := deref (Temperature_temperature (mm_maxTemp v8)) in Ok (near v9 (dlit (3) 1) (dlit (1) 20))) (
    chk 944 (let! v10 := deref v3 in Ok (TempUnit_beq Temp_C Temp_C)) (
    chk 945 (let! v11 := deref v3 in Ok (has_value (mm_maxTime v11))) (
    chk 946 (let! v12 := deref v3 in let! v13 := deref (mm_maxTime v12) in Ok (has_value (dayValue v13))) (
    chk 947 (let! v14 := deref v3 in let! v15 := deref (mm_maxTime v14) in let! v16 := deref (dayValue v15) in Ok (N.eqb v16 6%N)) (
    chk 948 (let! v17 := deref v3 in let! v18 := deref (mm_maxTime v17) in Ok (N.eqb (hourValue v18) 20%N)) (
    chk 949 (let! v19 := deref v3 in let! v20 := deref (mm_maxTime v19) in Ok (N.eqb (minuteValue v20) 0%N)) (
    chk 950 (let! v21 := deref v3 in Ok (negb (Temperature_isReported (mm_minTemp v21)))) (
    chk 951 (let! v22 := deref v3 in Ok (negb (has_value (mm_minTime v22)))) (
    None)))))))))))))))).

Definition t_MinMaxTemperatureGroup_appendForecastMinMin : option N :=
    step 955 ((MinMaxTemperatureGroup_parse "TN03/0620Z" RP_TAF md_default)) (fun v1 => 
    chk 956 (Ok (has_value v1)) (
    step 958 (let! v2 := deref v1 in MinMaxTemperatureGroup_append v2 "TN01/0623Z" RP_TAF md_default) (fun p => let v3 := Some (fst p) in let v4 := snd p in 
    chk 958 (Ok (AppendResult_beq v4 NOT_APPENDED)) (
    chk 961 (let! v5 := deref v3 in Ok (MmType_beq (mm_t v5) Mm_FORECAST)) (
    chk 962 (let! v6 := deref v3 in Ok (Temperature_isReported (mm_minTemp v6))) (
    chk 963 (let! v7 := deref v3 in Ok (has_value (Temperature_temperature (mm_minTemp v7)))) (
    chk 964 (let! v8 := deref v3 in let! v9 := deref (Temperature_temperature (mm_minTemp v8)) in Ok (near v9 (dlit (3) 1) (dlit (1) 20))) (
    chk 965 (let! v10 := deref v3 in Ok (TempUnit_beq Temp_C Temp_C)) (
    chk 966 (let! v11 := deref v3 in Ok (has_value (mm_minTime v11))) (
    chk 967 (let! v12 := deref v3 in let! v13 := deref (mm_minTime v12) in Ok (has_value (dayValue v13))) (
    chk 968 (let! v14 := deref v3 in let! v15 := deref (mm_minTime v14) in let! v16 := deref (dayValue v15) in Ok (N.eqb v16 6%N)) (
    chk 969 (let! v17 := deref v3 in let! v18 := deref (mm_minTime v17) in Ok (N.eqb (hourValue v18) 20%N)) (
    chk 970 (let! v19 := deref v3 in let! v20 := deref (mm_minTime v19) in Ok (N.eqb (minuteValue v20) 0%N)) (
    chk 971 (let! v21 := deref v3 in Ok (negb (Temperature_isReported (mm_maxTemp v21)))) (
    chk 972 (let! v22 := deref v3 in Ok (negb (has_value (mm_maxTime v22)))) (
    None)))))))))))))))).

Definition t_MinMaxTemperatureGroup_appendForecastMaxUnspecified : option N :=
    step 976 ((MinMaxTemperatureGroup_parse "TX03/0620Z" RP_TAF md_default)) (fun v1 => 
    chk 977 (Ok (has_value v1)) (
    step 979 (let! v2 := deref v1 in MinMaxTemperatureGroup_append v2 "T24/1306Z" RP_TAF md_default) (fun p => let v3 := Some (fst p) in let v4 := snd p in 
    chk 979 (Ok (AppendResult_beq v4 NOT_APPENDED)) (
    chk 982 (let! v5 := deref v3 in Ok (MmType_beq (mm_t v5) Mm_FORECAST)) (
    chk 983 (let! v6 := deref v3 in Ok (Temperature_isReported (mm_maxTemp v6))) (
    chk 984 (let! v7 := deref v3 in Ok (has_value (Temperature_temperature (mm_maxTemp v7)))) (
    chk 985 (let! v8 := deref v3 in let! v9 := deref (Temperature_temperature (mm_maxTemp v8)) in Ok (near v9 (dlit (3) 1) (dlit (1) 20))) (
    chk 986 (let! v10 := deref v3 in Ok (TempUnit_beq Temp_C Temp_C)) (
    chk 987 (let! v11 := deref v3 in Ok (has_value (mm_maxTime v11))) (
    chk 988 (let! v12 := deref v3 in let! v13 := deref (mm_maxTime v12) in Ok (has_value (dayValue v13))) (
    chk 989 (let! v14 := deref v3 in let! v15 := deref (mm_maxTime v14) in let! v16 := deref (dayValue v15) in Ok (N.eqb v16 6%N)) (
    chk 990 (let! v17 := deref v3 in let! v18 := deref (mm_maxTime v17) in Ok (N.eqb (hourValue v18) 20%N)) (
    chk 991 (let! v19 := deref v3 in let! v20 := deref (mm_maxTime v19) in Ok (N.eqb (minuteValue v20) 0%N)) (
    chk 992 (let! v21 := deref v3 in Ok (negb (Temperature_isReported (mm_minTemp v21)))) (
    chk 993 (let! v22 := deref v3 in Ok (negb (has_value (mm_minTime v22)))) (
    None)))))))))))))))).

Definition t_MinMaxTemperatureGroup_appendForecastMinUnspecified : option N :=
    step 997 ((MinMaxTemperatureGroup_parse "TN03/0620Z" RP_TAF md_default)) (fun v1 => 
    chk 998 (Ok (has_value v1)) (
    step 1000 (let! v2 := deref v1 in MinMaxTemperatureGroup_append v2 "T24/1306Z" RP_TAF md_default) (fun p => let v3 := Some (fst p) in let v4 := snd p in 
    chk 1000 (Ok (AppendResult_beq v4 NOT_APPENDED)) (
    chk 1003 (let! v5 := deref v3 in Ok (MmType_beq (mm_t v5) Mm_FORECAST)) (
    chk 1004 (let! v6 := deref v3 in Ok (Temperature_isReported (mm_minTemp v6))) (
    chk 1005 (let! v7 := deref v3 in Ok (has_value (Temperature_temperature (mm_minTemp v7)))) (
    chk 1006 (let! v8 := deref v3 in let! v9 := deref (Temperature_temperature (mm_minTemp v8)) in Ok (near v9 (dlit (3) 1) (dlit (1) 20))) (
    chk 1007 (let! v10 := deref v3 in Ok (TempUnit_beq Temp_C Temp_C)) (
    chk 1008 (let! v11 := deref v3 in Ok (has_value (mm_minTime v11))) (
    chk 1009 (let! v12 := deref v3 in let! v13 := deref (mm_minTime v12) in Ok (has_value (dayValue v13))) (
    chk 1010 (let! v14 := deref v3 in let! v15 := deref (mm_minTime v14) in let! v16 := deref (dayValue v15) in Ok (N.eqb v16 6%N)) (
    chk 1011 (let! v17 := deref v3 in let! v18 := deref (mm_minTime v17) in Ok (N.eqb (hourValue v18) 20%N)) (
    chk 1012 (let! v19 := deref v3 in let! v20 := deref (mm_minTime v19) in Ok (N.eqb (minuteValue v20) 0%N)) (
    chk 1013 (let! v21 := deref v3 in Ok (negb (Temperature_isReported (mm_maxTemp v21)))) (
    chk 1014 (let! v22 := deref v3 in Ok (negb (has_value (mm_maxTime v22)))) (
    None)))))))))))))))).

Definition t_MinMaxTemperatureGroup_appendForecastMinOrMaxToUnspecified : option N :=
    step 1018 ((MinMaxTemperatureGroup_parse "T24/1306Z" RP_TAF md_default)) (fun v1 => 
    chk 1019 (Ok (has_value v1)) (
    step 1021 (let! v2 := deref v1 in MinMaxTemperatureGroup_append v2 "TN20/1304Z" RP_TAF md_default) (fun p => let v3 := Some (fst p) in let v4 := snd p in 
    chk 1021 (Ok (AppendResult_beq v4 NOT_APPENDED)) (
    step 1023 (let! v5 := deref v3 in MinMaxTemperatureGroup_append v5 "TX28/1317Z" RP_TAF md_default) (fun p => let v6 := Some (fst p) in let v7 := snd p in 
    chk 1023 (Ok (AppendResult_beq v7 NOT_APPENDED)) (
    chk 1027 (let! v8 := deref v6 in Ok (MmType_beq (mm_t v8) Mm_FORECAST)) (
    chk 1028 (let! v9 := deref v6 in Ok (Temperature_isReported (mm_minTemp v9))) (
    chk 1029 (let! v10 := deref v6 in Ok (has_value (Temperature_temperature (mm_minTemp v10)))) (
    chk 1030 (let! v11 := deref v6 in let! v12 := deref (Temperature_temperature (mm_minTemp v11)) in Ok (near v12 (dlit (24) 1) (dlit (1) 20))) (
    chk 1031 (let! v13 := deref v6 in Ok (TempUnit_beq Temp_C Temp_C)) (
    chk 1032 (let! v14 := deref v6 in Ok (has_value (mm_minTime v14))) (
    chk 1033 (let! v15 := deref v6 in let! v16 := deref (mm_minTime v15) in Ok (has_value (dayValue v16))) (
    chk 1034 (let! v17 := deref v6 in let! v18 := deref (mm_minTime v17) in let! v19 := deref (dayValue v18) in Ok (N.eqb v19 13%N)) (
    chk 1035 (let! v20 := deref v6 in let! v21 := deref (mm_minTime v20) in Ok (N.eqb (hourValue v21) 6%N)) (
    chk 1036 (let! v22 := deref v6 in let! v23 := deref (mm_minTime v22) in Ok (N.eqb (minuteValue v23) 0%N)) (
    chk 1037 (let! v24 := deref v6 in Ok (Temperature_isReported (mm_maxTemp v24))) (
    chk 1038 (let! v25 := deref v6 in Ok (has_value (Temperature_temperature (mm_maxTemp v25)))) (
    chk 1039 (let! v26 := deref v6 in let! v27 := deref (Temperature_temperature (mm_maxTemp v26)) in Ok (near v27 (dlit (24) 1) (dlit (1) 20))) (
    chk 1040 (let! v28 := deref v6 in Ok (TempUnit_beq Temp_C Temp_C)) (
    chk 1041 (let! v29 := deref v6 in Ok (has_value (mm_maxTime v29))) (
    chk 1042 (let! v30 := deref v6 in let! v31 := deref (mm_maxTime v30) in Ok (has_value (dayValue v31))) (
    chk 1043 (let! v32 := deref v6 in let! v33 := deref (mm_maxTime v32) in let! v34 := deref (dayValue v33) in Ok (N.eqb v34 13%N)) (
    chk 1044 (let! v35 := deref v6 in let! v36 := deref (mm_maxTime v35) in Ok (N.eqb (hourValue v36) 6%N)) (
    chk 1045 (let! v37 := deref v6 in let! v38 := deref (mm_maxTime v37) in Ok (N.eqb (minuteValue v38) 0%N)) (
    None))))))))))))))))))))))))).

Definition t_MinMaxTemperatureGroup_appendForecastUnspecifiedMinUnspecifiedMax : option N :=
    step 1049 ((MinMaxTemperatureGroup_parse "T24/1306Z" RP_TAF md_default)) (fun v1 => 
    chk 1050 (Ok (has_value v1)) (
    step 1052 (let! v2 := deref v1 in MinMaxTemperatureGroup_append v2 "T30/1218Z" RP_TAF md_default) (fun p => let v3 := Some (fst p) in let v4 := snd p in 
    chk 1052 (Ok (AppendResult_beq v4 APPENDED)) (
    chk 1055 (let! v5 := deref v3 in Ok (MmType_beq (mm_t v5) Mm_FORECAST)) (
    chk 1056 (let! v6 := deref v3 in Ok (Temperature_isReported (mm_minTemp v6))) (
    chk 1057 (let! v7 := deref v3 in Ok (has_value (Temperature_temperature (mm_minTemp v7)))) (
    chk 1058 (let! v8 := deref v3 in let! v9 := deref (Temperature_temperature (mm_minTemp v8)) in Ok (near v9 (dlit (24) 1) (dlit (1) 20))) (
    chk 1059 (let! v10 := deref v3 in Ok (TempUnit_beq Temp_C Temp_C)) (
    chk 1060 (let! v11 := deref v3 in Ok (has_value (mm_minTime v11))) (
    chk 1061 (let! v12 := deref v3 in let! v13 := deref (mm_minTime v12) in Ok (has_value (dayValue v13))) (
    chk 1062 (let! v14 := deref v3 in let! v15 := deref (mm_minTime v14) in let! v16 := deref (dayValue v15) in Ok (N.eqb v16 13%N)) (
    chk 1063 (let! v17 := deref v3 in let! v18 := deref (mm_minTime v17) in Ok (N.eqb (hourValue v18) 6%N)) (
    chk 1064 (let! v19 := deref v3 in let! v20 := deref (mm_minTime v19) in Ok (N.eqb (minuteValue v20) 0%N)) (
    chk 1065 (let! v21 := deref v3 in Ok (Temperature_isReported (mm_maxTemp v21))) (
    chk 1066 (let! v22 := deref v3 in Ok (has_value (Temperature_temperature (mm_maxTemp v22)))) (
    chk 1067 (let! v23 := deref v3 in let! v24 := deref (Temperature_temperature (mm_maxTemp v23)) in Ok (near v24 (dlit (30) 1) (dlit (1) 20))) (
    chk 1068 (let! v25 := deref v3 in Ok (TempUnit_beq Temp_C Temp_C)) (
    chk 1069 (let! v26 := deref v3 in Ok (has_value (mm_maxTime v26))) (
    chk 1070 (let! v27 := deref v3 in let! v28 := deref (mm_maxTime v27) in Ok (has_value (dayValue v28))) (
    chk 1071 (let! v29 := deref v3 in let! v30 := deref (mm_maxTime v29) in let! v31 := deref (dayValue v30) in Ok (N.eqb v31 12%N)) (
    chk 1072 (let! v32 := deref v3 in let! v33 := deref (mm_maxTime v32) in Ok (N.eqb (hourValue v33) 18%N)) (
    chk 1073 (let! v34 := deref v3 in let! v35 := deref (mm_maxTime v34) in Ok (N.eqb (minuteValue v35) 0%N)) (
    None))))))))))))))))))))))).

Definition t_MinMaxTemperatureGroup_appendForecastUnspecifiedMaxUnspecifiedMin : option N :=
    step 1077 ((MinMaxTemperatureGroup_parse "T30/1218Z" RP_TAF md_default)) (fun v1 => 
    chk 1078 (Ok (has_value v1)) (
    step 1080 (let! v2 := deref v1 in MinMaxTemperatureGroup_append v2 "T24/1306Z" RP_TAF md_default) (fun p => let v3 := Some (fst p) in let v4 := snd p in 
    chk 1080 (Ok (AppendResult_beq v4 APPENDED)) (
    chk 1083 (let! v5 := deref v3 in Ok (MmType_beq (mm_t v5) Mm_FORECAST)) (
    chk 1084 (let! v6 := deref v3 in Ok (Temperature_isReported (mm_minTemp v6))) (
    chk 1085 (let! v7 := deref v3 in Ok (has_value (Temperature_temperature (mm_minTemp v7)))) (
    chk 1086 (let! v8 := deref v3 in let! v9 := deref (Temperature_temperature (mm_minTemp v8)) in Ok (near v9 (dlit (24) 1) (dlit (1) 20))) (
    chk 1087 (let! v10 := deref v3 in Ok (TempUnit_beq Temp_C Temp_C)) (
    chk 1088 (let! v11 := deref v3 in Ok (has_value (mm_minTime v11))) (
    chk 1089 (let! v12 := deref v3 in let! v13 := deref (mm_minTime v12) in Ok (has_value (dayValue v13))) (
    chk 1090 (let! v14 := deref v3 in let! v15 := deref (mm_minTime v14) in let! v16 := deref (dayValue v15) in Ok (N.eqb v16 13%N)) (
    chk 1091 (let! v17 := deref v3 in let! v18 := deref (mm_minTime v17) in Ok (N.eqb (hourValue v18) 6%N)) (
    chk 1092 (let! v19 := deref v3 in let! v20 := deref (mm_minTime v19) in Ok (N.eqb (minuteValue v20) 0%N)) (
    chk 1093 (let! v21 := deref v3 in Ok (Temperature_isReported (mm_maxTemp v21))) (
    chk 1094 (let! v22 := deref v3 in Ok (has_value (Temperature_temperature (mm_maxTemp v22)))) (
    chk 1095 (let! v23 := deref v3 in let! v24 := deref (Temperature_temperature (mm_maxTemp v23)) in Ok (near v24 (dlit (30) 1) (dlit (1) 20))) (
    chk 1096 (let! v25 := deref v3 in Ok (TempUnit_beq Temp_C Temp_C)) (
    chk 1097 (let! v26 := deref v3 in Ok (has_value (mm_maxTime v26))) (
    chk 1098 (let! v27 := deref v3 in let! v28 := deref (mm_maxTime v27) in Ok (has_value (dayValue v28))) (
    chk 1099 (let! v29 := deref v3 in let! v30 := deref (mm_maxTime v29) in let! v31 := deref (dayValue v30) in Ok (N.eqb v31 12%N)) (
    chk 1100 (let! v32 := deref v3 in let! v33 := deref (mm_maxTime v32) in Ok (N.eqb (hourValue v33) 18%N)) (
    chk 1101 (let! v34 := deref v3 in let! v35 := deref (mm_maxTime v34) in Ok (N.eqb (minuteValue v35) 0%N)) (
    None))))))))))))))))))))))).

Definition t_MinMaxTemperatureGroup_appendOtherToForecast : option N :=
    step 1105 ((MinMaxTemperatureGroup_parse "TN03/0620Z" RP_TAF md_default)) (fun v1 => 
    chk 1107 (Ok (has_value v1)) (
    step 1109 (let! v2 := deref v1 in MinMaxTemperatureGroup_append v2 "401120084" RP_RMK md_default) (fun p => let v3 := Some (fst p) in let v4 := snd p in 
    chk 1109 (Ok (AppendResult_beq v4 NOT_APPENDED)) (
    step 1111 (let! v5 := deref v3 in MinMaxTemperatureGroup_append v5 "21001" RP_RMK md_default) (fun p => let v6 := Some (fst p) in let v7 := snd p in 
    chk 1111 (Ok (AppendResult_beq v7 NOT_APPENDED)) (
    step 1113 (let! v8 := deref v6 in MinMaxTemperatureGroup_append v8 "20012" RP_RMK md_default) (fun p => let v9 := Some (fst p) in let v10 := snd p in 
    chk 1113 (Ok (AppendResult_beq v10 NOT_APPENDED)) (
    step 1115 (let! v11 := deref v9 in MinMaxTemperatureGroup_append v11 "11021" RP_RMK md_default) (fun p => let v12 := Some (fst p) in let v13 := snd p in 
    chk 1115 (Ok (AppendResult_beq v13 NOT_APPENDED)) (
    step 1117 (let! v14 := deref v12 in MinMaxTemperatureGroup_append v14 "10142" RP_RMK md_default) (fun p => let v15 := Some (fst p) in let v16 := snd p in 
    chk 1117 (Ok (AppendResult_beq v16 NOT_APPENDED)) (
    step 1119 (let! v17 := deref v15 in MinMaxTemperatureGroup_append v17 "1////" RP_RMK md_default) (fun p => let v18 := Some (fst p) in let v19 := snd p in 
    chk 1119 (Ok (AppendResult_beq v19 NOT_APPENDED)) (
    step 1121 (let! v20 := deref v18 in MinMaxTemperatureGroup_append v20 "2////" RP_RMK md_default) (fun p => let v21 := Some (fst p) in let v22 := snd p in 
    chk 1121 (Ok (AppendResult_beq v22 NOT_APPENDED)) (
    step 1123 (let! v23 := deref v21 in MinMaxTemperatureGroup_append v23 "MISG" RP_RMK md_default) (fun p => let v24 := Some (fst p) in let v25 := snd p in 
    chk 1123 (Ok (AppendResult_beq v25 NOT_APPENDED)) (
    step 1125 (let! v26 := deref v24 in MinMaxTemperatureGroup_append v26 "" RP_RMK md_default) (fun p => let v27 := Some (fst p) in let v28 := snd p in 
    chk 1125 (Ok (AppendResult_beq v28 NOT_APPENDED)) (
    chk 1128 (let! v29 := deref v27 in Ok (MmType_beq (mm_t v29) Mm_FORECAST)) (
    chk 1129 (let! v30 := deref v27 in Ok (Temperature_isReported (mm_minTemp v30))) (
    chk 1130 (let! v31 := deref v27 in Ok (has_value (Temperature_temperature (mm_minTemp v31)))) (
    chk 1131 (let! v32 := deref v27 in let! v33 := deref (Temperature_temperature (mm_minTemp v32)) in Ok (near v33 (dlit (3) 1) (dlit (1) 20))) (
    chk 1132 (let! v34 := deref v27 in Ok (TempUnit_beq Temp_C Temp_C)) (
    chk 1133 (let! v35 := deref v27 in Ok (has_value (mm_minTime v35))) (
    chk 1134 (let! v36 := deref v27 in let! v37 := deref (mm_minTime v36) in Ok (has_value (dayValue v37))) (
    chk 1135 (let! v38 := deref v27 in let! v39 := deref (mm_minTime v38) in let! v40 := deref (dayValue v39) in Ok (N.eqb v40 6%N)) (
    chk 1136 (let! v41 := deref v27 in let! v42 := deref (mm_minTime v41) in Ok (N.eqb (hourValue v42) 20%N)) (
    chk 1137 (let! v43 := deref v27 in let! v44 := deref (mm_minTime v43) in Ok (N.eqb (minuteValue v44) 0%N)) (
    chk 1138 (let! v45 := deref v27 in Ok (negb (Temperature_isReported (mm_maxTemp v45)))) (
    chk 1139 (let! v46 := deref v27 in Ok (negb (has_value (mm_maxTime v46)))) (
    step 1142 ((MinMaxTemperatureGroup_parse "TX03/0620Z" RP_TAF md_default)) (fun v47 => 
    chk 1144 (Ok (has_value v47)) (
    step 1146 (let! v48 := deref v47 in MinMaxTemperatureGroup_append v48 "401120084" RP_RMK md_default) (fun p => let v49 := Some (fst p) in let v50 := snd p in 
    chk 1146 (Ok (AppendResult_beq v50 NOT_APPENDED)) (
    step 1148 (let! v51 := deref v49 in MinMaxTemperatureGroup_append v51 "21001" RP_RMK md_default) (fun p => let v52 := Some (fst p) in let v53 := snd p in 
    chk 1148 (Ok (AppendResult_beq v53 NOT_APPENDED)) (
    step 1150 (let! v54 := deref v52 in MinMaxTemperatureGroup_append v54 "20012" RP_RMK md_default) (fun p => let v55 := Some (fst p) in let v56 := snd p in 
    chk 1150 (Ok (AppendResult_beq v56 NOT_APPENDED)) (
    step 1152 (let! v57 := deref v55 in MinMaxTemperatureGroup_append v57 "11021" RP_RMK md_default) (fun p => let v58 := Some (fst p) in let v59 := snd p in 
    chk 1152 (Ok (AppendResult_beq v59 NOT_APPENDED)) (
    step 1154 (let! v60 := deref v58 in MinMaxTemperatureGroup_append v60 "10142" RP_RMK md_default) (fun p => let v61 := Some (fst p) in let v62 := snd p in 
    chk 1154 (Ok (AppendResult_beq v62 NOT_APPENDED)) (
    step 1156 (let! v63 := deref v61 in MinMaxTemperatureGroup_append v63 "1////" RP_RMK md_default) (fun p => let v64 := Some (fst p) in let v65 := snd p in 
    chk 1156 (Ok (AppendResult_beq v65 NOT_APPENDED)) (
    step 1158 (let! v66 := deref v64 in MinMaxTemperatureGroup_append v66 "2////" RP_RMK md_default) (fun p => let v67 := Some (fst p) in let v68 := snd p in 
    chk 1158 (Ok (AppendResult_beq v68 NOT_APPENDED)) (
    step 1160 (let! v69 := deref v67 in MinMaxTemperatureGroup_append v69 "MISG" RP_RMK md_default) (fun p => let v70 := Some (fst p) in let v71 := snd p in 
    chk 1160 (Ok (AppendResult_beq v71 NOT_APPENDED)) (
    step 1162 (let! v72 := deref v70 in MinMaxTemperatureGroup_append v72 "" RP_RMK md_default) (fun p => let v73 := Some (fst p) in let v74 := snd p in 
    chk 1162 (Ok (AppendResult_beq v74 NOT_APPENDED)) (
    chk 1165 (let! v75 := deref v73 in Ok (MmType_beq (mm_t v75) Mm_FORECAST)) (
    chk 1166 (let! v76 := deref v73 in Ok (Temperature_isReported (mm_maxTemp v76))) (
    chk 1167 (let! v77 := deref v73 in Ok (has_value (Temperature_temperature (mm_maxTemp v77)))) (
    chk 1168 (let! v78 := deref v73 in let! v79 := deref (Temperature_temperature (mm_maxTemp v78)) in Ok (near v79 (dlit (3) 1) (dlit (1) 20))) (
    chk 1169 (let! v80 := deref v73 in Ok (TempUnit_beq Temp_C Temp_C)) (
    chk 1170 (let! v81 := deref v73 in Ok (has_value (mm_maxTime v81))) (
    chk 1171 (let! v82 := deref v73 in let! v83 := deref (mm_maxTime v82) in Ok (has_value (dayValue v83))) (
    chk 1172 (let! v84 := deref v73 in let! v85 := deref (mm_maxTime v84) in let! v86 := deref (dayValue v85) in Ok (N.eqb v86 6%N)) (
    chk 1173 (let! v87 := deref v73 in let! v88 := deref (mm_maxTime v87) in Ok (N.eqb (hourValue v88) 20%N)) (
    chk 1174 (let! v89 := deref v73 in let! v90 := deref (mm_maxTime v89) in Ok (N.eqb (minuteValue v90) 0%N)) (
    chk 1175 (let! v91 := deref v73 in Ok (negb (Temperature_isReported (mm_minTemp v91)))) (
    chk 1176 (let! v92 := deref v73 in Ok (negb (has_value (mm_minTime v92)))) (
    step 1178 ((MinMaxTemperatureGroup_parse "T24/1306Z" RP_TAF md_default)) (fun v93 => 
    chk 1180 (Ok (has_value v93)) (
    step 1182 (let! v94 := deref v93 in MinMaxTemperatureGroup_append v94 "401120084" RP_RMK md_default) (fun p => let v95 := Some (fst p) in let v96 := snd p in 
    chk 1182 (Ok (AppendResult_beq v96 NOT_APPENDED)) (
    step 1184 (let! v97 := deref v95 in MinMaxTemperatureGroup_append v97 "21001" RP_RMK md_default) (fun p => let v98 := Some (fst p) in let v99 := snd p in 
    chk 1184 (Ok (AppendResult_beq v99 NOT_APPENDED)) (
    step 1186 (let! v100 := deref v98 in MinMaxTemperatureGroup_append v100 "20012" RP_RMK md_default) (fun p => let v101 := Some (fst p) in let v102 := snd p in 
    chk 1186 (Ok (AppendResult_beq v102 NOT_APPENDED)) (
    step 1188 (let! v103 := deref v101 in MinMaxTemperatureGroup_append v103 "11021" RP_RMK md_default) (fun p => let v104 := Some (fst p) in let v105 := snd p in 
    chk 1188 (Ok (AppendResult_beq v105 NOT_APPENDED)) (
    step 1190 (let! v106 := deref v104 in MinMaxTemperatureGroup_append v106 "10142" RP_RMK md_default) (fun p => let v107 := Some (fst p) in let v108 := snd p in 
    chk 1190 (Ok (AppendResult_beq v108 NOT_APPENDED)) (
    step 1192 (let! v109 := deref v107 in MinMaxTemperatureGroup_append v109 "1////" RP_RMK md_default) (fun p => let v110 := Some (fst p) in let v111 := snd p in 
    chk 1192 (Ok (AppendResult_beq v111 NOT_APPENDED)) (
    step 1194 (let! v112 := deref v110 in MinMaxTemperatureGroup_append v112 "2////" RP_RMK md_default) (fun p => let v113 := Some (fst p) in let v114 := snd p in 
    chk 1194 (Ok (AppendResult_beq v114 NOT_APPENDED)) (
    step 1196 (let! v115 := deref v113 in MinMaxTemperatureGroup_append v115 "MISG" RP_RMK md_default) (fun p => let v116 := Some (fst p) in let v117 := snd p in 
    chk 1196 (Ok (AppendResult_beq v117 NOT_APPENDED)) (
    step 1198 (let! v118 := deref v116 in MinMaxTemperatureGroup_append v118 "" RP_RMK md_default) (fun p => let v119 := Some (fst p) in let v120 := snd p in 
    chk 1198 (Ok (AppendResult_beq v120 NOT_APPENDED)) (
    chk 1201 (let! v121 := deref v119 in Ok (MmType_beq (mm_t v121) Mm_FORECAST)) (
    chk 1202 (let! v122 := deref v119 in Ok (Temperature_isReported (mm_minTemp v122))) (
    chk 1203 (let! v123 := deref v119 in Ok (has_value (Temperature_temperature (mm_minTemp v123)))) (
    chk 1204 (let! v124 := deref v119 in let! v125 := deref (Temperature_temperature (mm_minTemp v124)) in Ok (near v125 (dlit (24) 1) (dlit (1) 20))) (
    chk 1205 (let! v126 := deref v119 in Ok (TempUnit_beq Temp_C Temp_C)) (
    chk 1206 (let! v127 := deref v119 in Ok (has_value (mm_minTime v127))) (
    chk 1207 (let! v128 := deref v119 in let! v129 := deref (mm_minTime v128) in Ok (has_value (dayValue v129))) (
    chk 1208 (let! v130 := deref v119 in let! v131 := deref (mm_minTime v130) in let! v132 := deref (dayValue v131) in Ok (N.eqb v132 13%N)) (
    chk 1209 (let! v133 := deref v119 in let! v134 := deref (mm_minTime v133) in Ok (N.eqb (hourValue v134) 6%N)) (
    chk 1210 (let! v135 := deref v119 in let! v136 := deref (mm_minTime v135) in Ok (N.eqb (minuteValue v136) 0%N)) (
    chk 1211 (let! v137 := deref v119 in Ok (Temperature_isReported (mm_maxTemp v137))) (
    chk 1212 (let! v138 := deref v119 in Ok (has_value (Temperature_temperature (mm_maxTemp v138)))) (
    chk 1213 (let! v139 := deref v119 in let! v140 := deref (Temperature_temperature (mm_maxTemp v139)) in Ok (near v140 (dlit (24) 1) (dlit (1) 20))) (
    chk 1214 (let! v141 := deref v119 in Ok (TempUnit_beq Temp_C Temp_C)) (
    chk 1215 (let! v142 := deref v119 in Ok (has_value (mm_maxTime v142))) (
    chk 1216 (let! v143 := deref v119 in let! v144 := deref (mm_maxTime v143) in Ok (has_value (dayValue v144))) (
    chk 1217 (let! v145 := deref v119 in let! v146 := deref (mm_maxTime v145) in let! v147 := deref (dayValue v146) in Ok (N.eqb v147 13%N)) (
    chk 1218 (let! v148 := deref v119 in let! v149 := deref (mm_maxTime v148) in Ok (N.eqb (hourValue v149) 6%N)) (
    chk 1219 (let! v150 := deref v119 in let! v151 := deref (mm_maxTime v150) in Ok (N.eqb (minuteValue v151) 0%N)) (
    None))))))))))))))))))))))))))))))))))))))))))))))))))))))))))))))))))))))))))))))))))))))))))))))))))))))).

Definition t_MinMaxTemperatureGroup_appendToForecastMinMax : option N :=
    step 1223 ((MinMaxTemperatureGroup_parse "TNM02/0709Z" RP_TAF md_default)) (fun v1 => 
    chk 1224 (Ok (has_value v1)) (
    step 1226 (let! v2 := deref v1 in MinMaxTemperatureGroup_append v2 "TX03/0620Z" RP_TAF md_default) (fun p => let v3 := Some (fst p) in let v4 := snd p in 
    chk 1226 (Ok (AppendResult_beq v4 APPENDED)) (
    step 1229 (let! v5 := deref v3 in MinMaxTemperatureGroup_append v5 "401120084" RP_RMK md_default) (fun p => let v6 := Some (fst p) in let v7 := snd p in 
    chk 1229 (Ok (AppendResult_beq v7 NOT_APPENDED)) (
    step 1231 (let! v8 := deref v6 in MinMaxTemperatureGroup_append v8 "21001" RP_RMK md_default) (fun p => let v9 := Some (fst p) in let v10 := snd p in 
    chk 1231 (Ok (AppendResult_beq v10 NOT_APPENDED)) (
    step 1233 (let! v11 := deref v9 in MinMaxTemperatureGroup_append v11 "20012" RP_RMK md_default) (fun p => let v12 := Some (fst p) in let v13 := snd p in 
    chk 1233 (Ok (AppendResult_beq v13 NOT_APPENDED)) (
    step 1235 (let! v14 := deref v12 in MinMaxTemperatureGroup_append v14 "11021" RP_RMK md_default) (fun p => let v15 := Some (fst p) in let v16 := snd p in 
    chk 1235 (Ok (AppendResult_beq v16 NOT_APPENDED)) (
    step 1237 (let! v17 := deref v15 in MinMaxTemperatureGroup_append v17 "10142" RP_RMK md_default) (fun p => let v18 := Some (fst p) in let v19 := snd p in 
    chk 1237 (Ok (AppendResult_beq v19 NOT_APPENDED)) (
    step 1239 (let! v20 := deref v18 in MinMaxTemperatureGroup_append v20 "1////" RP_RMK md_default) (fun p => let v21 := Some (fst p) in let v22 := snd p in 
    chk 1239 (Ok (AppendResult_beq v22 NOT_APPENDED)) (
    step 1241 (let! v23 := deref v21 in MinMaxTemperatureGroup_append v23 "2////" RP_RMK md_default) (fun p => let v24 := Some (fst p) in let v25 := snd p in 
    chk 1241 (Ok (AppendResult_beq v25 NOT_APPENDED)) (
    step 1243 (let! v26 := deref v24 in MinMaxTemperatureGroup_append v26 "MISG" RP_RMK md_default) (fun p => let v27 := Some (fst p) in let v28 := snd p in 
    chk 1243 (Ok (AppendResult_beq v28 NOT_APPENDED)) (
    step 1245 (let! v29 := deref v27 in MinMaxTemperatureGroup_append v29 "" RP_RMK md_default) (fun p => let v30 := Some (fst p) in let v31 := snd p in 
    chk 1245 (Ok (AppendResult_beq v31 NOT_APPENDED)) (
    chk 1248 (let! v32 := deref v30 in Ok (MmType_beq (mm_t v32) Mm_FORECAST)) (
    chk 1249 (let! v33 := deref v30 in Ok (Temperature_isReported (mm_maxTemp v33))) (
    chk 1250 (let! v34 := deref v30 in Ok (has_value (Temperature_temperature (mm_maxTemp v34)))) (
    chk 1251 (let! v35 := deref v30 in let! v36 := deref (Temperature_temperature (mm_maxTemp v35)) in Ok (near v36 (dlit (3) 1) (dlit (1) 20))) (
    chk 1252 (let! v37 := deref v30 in Ok (TempUnit_beq Temp_C Temp_C)) (
    chk 1253 (let! v38 := deref v30 in Ok (has_value (mm_maxTime v38))) (
    chk 1254 (let! v39 := deref v30 in let! v40 := deref (mm_maxTime v39) in Ok (has_value (dayValue v40))) (
    chk 1255 (let! v41 := deref v30 in let! v42 := deref (mm_maxTime v41) in let! v43 := deref (dayValue v42) in Ok (N.eqb v43 6%N)) (
    chk 1256 (let! v44 := deref v30 in let! v45 := deref (mm_maxTime v44) in Ok (N.eqb (hourValue v45) 20%N)) (
    chk 1257 (let! v46 := deref v30 in let! v47 := deref (mm_maxTime v46) in Ok (N.eqb (minuteValue v47) 0%N)) (
    chk 1258 (let! v48 := deref v30 in Ok (Temperature_isReported (mm_maxTemp v48))) (
    chk 1259 (let! v49 := deref v30 in Ok (has_value (Temperature_temperature (mm_minTemp v49)))) (
    chk 1260 (let! v50 := deref v30 in let! v51 := deref (Temperature_temperature (mm_minTemp v50)) in Ok (near v51 (dlit (-2) 1) (dlit (1) 20))) (
    chk 1261 (let! v52 := deref v30 in Ok (TempUnit_beq Temp_C Temp_C)) (
    chk 1262 (let! v53 := deref v30 in Ok (has_value (mm_minTime v53))) (
    chk 1263 (let! v54 := deref v30 in let! v55 := deref (mm_minTime v54) in Ok (has_value (dayValue v55))) (
    chk 1264 (let! v56 := deref v30 in let! v57 := deref (mm_minTime v56) in let! v58 := deref (dayValue v57) in Ok (N.eqb v58 7%N)) (
    chk 1265 (let! v59 := deref v30 in let! v60 := deref (mm_minTime v59) in Ok (N.eqb (hourValue v60) 9%N)) (
    chk 1266 (let! v61 := deref v30 in let! v62 := deref (mm_minTime v61) in Ok (N.eqb (minuteValue v62) 0%N)) (
    None))))))))))))))))))))))))))))))))))))))))).

Definition t_MinMaxTemperatureGroup_isValidTrue24hourly : option N :=
    step 1278 ((MinMaxTemperatureGroup_parse "401120084" RP_RMK md_default)) (fun v1 => 
    chk 1280 (Ok (has_value v1)) (
    chk 1281 (let! v2 := deref v1 in Ok (MinMaxTemperatureGroup_isValid v2)) (
    step 1283 ((MinMaxTemperatureGroup_parse "401001015" RP_RMK md_default)) (fun v3 => 
    chk 1285 (Ok (has_value v3)) (
    chk 1286 (let! v4 := deref v3 in Ok (MinMaxTemperatureGroup_isValid v4)) (
    None)))))).

Definition t_MinMaxTemperatureGroup_isValidFalse24hourlyInconsistentValue : option N :=
    step 1290 ((MinMaxTemperatureGroup_parse "400840112" RP_RMK md_default)) (fun v1 => 
    chk 1292 (Ok (has_value v1)) (
    chk 1293 (let! v2 := deref v1 in Ok (negb (MinMaxTemperatureGroup_isValid v2))) (
    step 1295 ((MinMaxTemperatureGroup_parse "410151014" RP_RMK md_default)) (fun v3 => 
    chk 1297 (Ok (has_value v3)) (
    chk 1298 (let! v4 := deref v3 in Ok (negb (MinMaxTemperatureGroup_isValid v4))) (
    step 1300 ((MinMaxTemperatureGroup_parse "410000000" RP_RMK md_default)) (fun v5 => 
    chk 1302 (Ok (has_value v5)) (
    chk 1303 (let! v6 := deref v5 in Ok (negb (MinMaxTemperatureGroup_isValid v6))) (
    step 1305 ((MinMaxTemperatureGroup_parse "410150100" RP_RMK md_default)) (fun v7 => 
    chk 1307 (Ok (has_value v7)) (
    chk 1308 (let! v8 := deref v7 in Ok (negb (MinMaxTemperatureGroup_isValid v8))) (
    None)))))))))))).

Definition t_MinMaxTemperatureGroup_isValidTrue6hourly : option N :=
    step 1317 ((MinMaxTemperatureGroup_parse "11001" RP_RMK md_default)) (fun v1 => 
    chk 1319 (Ok (has_value v1)) (
    chk 1320 (let! v2 := deref v1 in Ok (MinMaxTemperatureGroup_isValid v2)) (
    step 1321 (let! v3 := deref v1 in MinMaxTemperatureGroup_append v3 "21021" RP_RMK md_default) (fun p => let v4 := Some (fst p) in let v5 := snd p in 
    chk 1321 (Ok (AppendResult_beq v5 APPENDED)) (
    chk 1323 (let! v6 := deref v4 in Ok (MinMaxTemperatureGroup_isValid v6)) (
    step 1325 ((MinMaxTemperatureGroup_parse "21021" RP_RMK md_default)) (fun v7 => 
    chk 1327 (Ok (has_value v7)) (
    chk 1328 (let! v8 := deref v7 in Ok (MinMaxTemperatureGroup_isValid v8)) (
    step 1329 (let! v9 := deref v7 in MinMaxTemperatureGroup_append v9 "11001" RP_RMK md_default) (fun p => let v10 := Some (fst p) in let v11 := snd p in 
    chk 1329 (Ok (AppendResult_beq v11 APPENDED)) (
    chk 1331 (let! v12 := deref v10 in Ok (MinMaxTemperatureGroup_isValid v12)) (
    step 1333 ((MinMaxTemperatureGroup_parse "1////" RP_RMK md_default)) (fun v13 => 
    chk 1335 (Ok (has_value v13)) (
    chk 1336 (let! v14 := deref v13 in Ok (MinMaxTemperatureGroup_isValid v14)) (
    step 1337 (let! v15 := deref v13 in MinMaxTemperatureGroup_append v15 "2////" RP_RMK md_default) (fun p => let v16 := Some (fst p) in let v17 := snd p in 
    chk 1337 (Ok (AppendResult_beq v17 APPENDED)) (
    chk 1339 (let! v18 := deref v16 in Ok (MinMaxTemperatureGroup_isValid v18)) (
    step 1341 ((MinMaxTemperatureGroup_parse "2////" RP_RMK md_default)) (fun v19 => 
    chk 1343 (Ok (has_value v19)) (
    chk 1344 (let! v20 := deref v19 in Ok (MinMaxTemperatureGroup_isValid v20)) (
    step 1345 (let! v21 := deref v19 in MinMaxTemperatureGroup_append v21 "2////" RP_RMK md_default) (fun p => let v22 := Some (fst p) in let v23 := snd p in 
    chk 1345 (Ok (AppendResult_beq v23 APPENDED)) (
    chk 1347 (let! v24 := deref v22 in Ok (MinMaxTemperatureGroup_isValid v24)) (
    None)))))))))))))))))))))))).

Definition t_MinMaxTemperatureGroup_isValidTrue6hourlyAppended : option N :=
    step 1351 ((MinMaxTemperatureGroup_parse "20004" RP_RMK md_default)) (fun v1 => 
    chk 1353 (Ok (has_value v1)) (
    step 1354 (let! v2 := deref v1 in MinMaxTemperatureGroup_append v2 "10021" RP_RMK md_default) (fun p => let v3 := Some (fst p) in let v4 := snd p in 
    chk 1354 (Ok (AppendResult_beq v4 APPENDED)) (
    chk 1356 (let! v5 := deref v3 in Ok (MinMaxTemperatureGroup_isValid v5)) (
    None))))).

Definition t_MinMaxTemperatureGroup_isValidFalse6hourlyInconsistentValues : option N :=
    step 1360 ((MinMaxTemperatureGroup_parse "20010" RP_RMK md_default)) (fun v1 => 
    chk 1362 (Ok (has_value v1)) (
    step 1363 (let! v2 := deref v1 in MinMaxTemperatureGroup_append v2 "11010" RP_RMK md_default) (fun p => let v3 := Some (fst p) in let v4 := snd p in 
    chk 1363 (Ok (AppendResult_beq v4 APPENDED)) (
    chk 1365 (let! v5 := deref v3 in Ok (negb (MinMaxTemperatureGroup_isValid v5))) (
    step 1367 ((MinMaxTemperatureGroup_parse "20162" RP_RMK md_default)) (fun v6 => 
    chk 1369 (Ok (has_value v6)) (
    step 1370 (let! v7 := deref v6 in MinMaxTemperatureGroup_append v7 "10015" RP_RMK md_default) (fun p => let v8 := Some (fst p) in let v9 := snd p in 
    chk 1370 (Ok (AppendResult_beq v9 APPENDED)) (
    chk 1372 (let! v10 := deref v8 in Ok (negb (MinMaxTemperatureGroup_isValid v10))) (
    step 1374 ((MinMaxTemperatureGroup_parse "21022" RP_RMK md_default)) (fun v11 => 
    chk 1376 (Ok (has_value v11)) (
    step 1377 (let! v12 := deref v11 in MinMaxTemperatureGroup_append v12 "11074" RP_RMK md_default) (fun p => let v13 := Some (fst p) in let v14 := snd p in 
    chk 1377 (Ok (AppendResult_beq v14 APPENDED)) (
    chk 1379 (let! v15 := deref v13 in Ok (negb (MinMaxTemperatureGroup_isValid v15))) (
    None))))))))))))))).

Definition t_MinMaxTemperatureGroup_isValidTrueForecastSingle : option N :=
    step 1383 ((MinMaxTemperatureGroup_parse "TX03/0620Z" RP_TAF md_default)) (fun v1 => 
    chk 1385 (Ok (has_value v1)) (
    chk 1386 (let! v2 := deref v1 in Ok (MinMaxTemperatureGroup_isValid v2)) (
    step 1388 ((MinMaxTemperatureGroup_parse "TNM23/0617Z" RP_TAF md_default)) (fun v3 => 
    chk 1390 (Ok (has_value v3)) (
    chk 1391 (let! v4 := deref v3 in Ok (MinMaxTemperatureGroup_isValid v4)) (
    None)))))).

Definition t_MinMaxTemperatureGroup_isValidTrueForecastAppended : option N :=
    step 1395 ((MinMaxTemperatureGroup_parse "TX03/0620Z" RP_TAF md_default)) (fun v1 => 
    chk 1397 (Ok (has_value v1)) (
    step 1398 (let! v2 := deref v1 in MinMaxTemperatureGroup_append v2 "TNM23/0617Z" RP_TAF md_default) (fun p => let v3 := Some (fst p) in let v4 := snd p in 
    chk 1398 (Ok (AppendResult_beq v4 APPENDED)) (
    chk 1400 (let! v5 := deref v3 in Ok (MinMaxTemperatureGroup_isValid v5)) (
    None))))).

Definition t_MinMaxTemperatureGroup_isValidFalseForecastSingleUnspecifiedPoint : option N :=
    step 1404 ((MinMaxTemperatureGroup_parse "T03/0620Z" RP_TAF md_default)) (fun v1 => 
    chk 1406 (Ok (has_value v1)) (
    chk 1407 (let! v2 := deref v1 in Ok (negb (MinMaxTemperatureGroup_isValid v2))) (
    None))).

Definition t_MinMaxTemperatureGroup_isValidFalseForecastInconsistentValues : option N :=
    step 1411 ((MinMaxTemperatureGroup_parse "TX03/0620Z" RP_TAF md_default)) (fun v1 => 
    chk 1413 (Ok (has_value v1)) (
    step 1414 (let! v2 := deref v1 in MinMaxTemperatureGroup_append v2 "TN04/0608Z" RP_TAF md_default) (fun p => let v3 := Some (fst p) in let v4 := snd p in 
    chk 1414 (Ok (AppendResult_beq v4 APPENDED)) (
    chk 1416 (let! v5 := deref v3 in Ok (negb (MinMaxTemperatureGroup_isValid v5))) (
    None))))).

Definition t_MinMaxTemperatureGroup_isValidFalseForecastInvalidTime : option N :=
    step 1420 ((MinMaxTemperatureGroup_parse "TN03/0024Z" RP_TAF md_default)) (fun v1 => 
    chk 1422 (Ok (has_value v1)) (
    chk 1423 (let! v2 := deref v1 in Ok (negb (MinMaxTemperatureGroup_isValid v2))) (
    step 1425 ((MinMaxTemperatureGroup_parse "TN03/3224Z" RP_TAF md_default)) (fun v3 => 
    chk 1427 (Ok (has_value v3)) (
    chk 1428 (let! v4 := deref v3 in Ok (negb (MinMaxTemperatureGroup_isValid v4))) (
    step 1430 ((MinMaxTemperatureGroup_parse "TN03/3125Z" RP_TAF md_default)) (fun v5 => 
    chk 1432 (Ok (has_value v5)) (
    chk 1433 (let! v6 := deref v5 in Ok (negb (MinMaxTemperatureGroup_isValid v6))) (
    None))))))))).

Example tests_minmaxtemperaturegroup_pass : failures
  [("MinMaxTemperatureGroup_parse24hourly", t_MinMaxTemperatureGroup_parse24hourly);
   ("MinMaxTemperatureGroup_parse24hourlyWrongReportPart", t_MinMaxTemperatureGroup_parse24hourlyWrongReportPart);
   ("MinMaxTemperatureGroup_parse24hourlyWrongFormat", t_MinMaxTemperatureGroup_parse24hourlyWrongFormat);
   ("MinMaxTemperatureGroup_append24hourly", t_MinMaxTemperatureGroup_append24hourly);
   ("MinMaxTemperatureGroup_appendOtherTo24hourly", t_MinMaxTemperatureGroup_appendOtherTo24hourly);
   ("MinMaxTemperatureGroup_parse6hourlyMinimum", t_MinMaxTemperatureGroup_parse6hourlyMinimum);
   ("MinMaxTemperatureGroup_parse6hourlyMaximum", t_MinMaxTemperatureGroup_parse6hourlyMaximum);
   ("MinMaxTemperatureGroup_parse6hourlyNotReported", t_MinMaxTemperatureGroup_parse6hourlyNotReported);
   ("MinMaxTemperatureGroup_parse6hourlyWrongReportPart", t_MinMaxTemperatureGroup_parse6hourlyWrongReportPart);
   ("MinMaxTemperatureGroup_parse6hourlyWrongFormat", t_MinMaxTemperatureGroup_parse6hourlyWrongFormat);
   ("MinMaxTemperatureGroup_append6hourlyMinMax", t_MinMaxTemperatureGroup_append6hourlyMinMax);
   ("MinMaxTemperatureGroup_append6hourlyMaxMin", t_MinMaxTemperatureGroup_append6hourlyMaxMin);
   ("MinMaxTemperatureGroup_append6hourlyMinMin", t_MinMaxTemperatureGroup_append6hourlyMinMin);
   ("MinMaxTemperatureGroup_append6hourlyMaxMax", t_MinMaxTemperatureGroup_append6hourlyMaxMax);
   ("MinMaxTemperatureGroup_append6hourlyMinNotReportedMax", t_MinMaxTemperatureGroup_append6hourlyMinNotReportedMax);
   ("MinMaxTemperatureGroup_append6hourlyMinMaxNotRepoted", t_MinMaxTemperatureGroup_append6hourlyMinMaxNotRepoted);
   ("MinMaxTemperatureGroup_append6hourlyNotRepoted", t_MinMaxTemperatureGroup_append6hourlyNotRepoted);
   ("MinMaxTemperatureGroup_appendOtherTo6hourly", t_MinMaxTemperatureGroup_appendOtherTo6hourly);
   ("MinMaxTemperatureGroup_appendTo6hourlyMinMax", t_MinMaxTemperatureGroup_appendTo6hourlyMinMax);
   ("MinMaxTemperatureGroup_parseForecastMinimum", t_MinMaxTemperatureGroup_parseForecastMinimum);
   ("MinMaxTemperatureGroup_parseForecastMaximum", t_MinMaxTemperatureGroup_parseForecastMaximum);
   ("MinMaxTemperatureGroup_parseForecastUnspesified", t_MinMaxTemperatureGroup_parseForecastUnspesified);
   ("MinMaxTemperatureGroup_parseForecastWrongReportPart", t_MinMaxTemperatureGroup_parseForecastWrongReportPart);
   ("MinMaxTemperatureGroup_parseForecastWrongFormat", t_MinMaxTemperatureGroup_parseForecastWrongFormat);
   ("MinMaxTemperatureGroup_appendForecastMinMax", t_MinMaxTemperatureGroup_appendForecastMinMax);
   ("MinMaxTemperatureGroup_appendForecastMaxMin", t_MinMaxTemperatureGroup_appendForecastMaxMin);
   ("MinMaxTemperatureGroup_appendForecastMaxMax", t_MinMaxTemperatureGroup_appendForecastMaxMax);
   ("MinMaxTemperatureGroup_appendForecastMinMin", t_MinMaxTemperatureGroup_appendForecastMinMin);
   ("MinMaxTemperatureGroup_appendForecastMaxUnspecified", t_MinMaxTemperatureGroup_appendForecastMaxUnspecified);
   ("MinMaxTemperatureGroup_appendForecastMinUnspecified", t_MinMaxTemperatureGroup_appendForecastMinUnspecified);
   ("MinMaxTemperatureGroup_appendForecastMinOrMaxToUnspecified", t_MinMaxTemperatureGroup_appendForecastMinOrMaxToUnspecified);
   ("MinMaxTemperatureGroup_appendForecastUnspecifiedMinUnspecifiedMax", t_MinMaxTemperatureGroup_appendForecastUnspecifiedMinUnspecifiedMax);
   ("MinMaxTemperatureGroup_appendForecastUnspecifiedMaxUnspecifiedMin", t_MinMaxTemperatureGroup_appendForecastUnspecifiedMaxUnspecifiedMin);
   ("MinMaxTemperatureGroup_appendOtherToForecast", t_MinMaxTemperatureGroup_appendOtherToForecast);
   ("MinMaxTemperatureGroup_appendToForecastMinMax", t_MinMaxTemperatureGroup_appendToForecastMinMax);
   ("MinMaxTemperatureGroup_isValidTrue24hourly", t_MinMaxTemperatureGroup_isValidTrue24hourly);
   ("MinMaxTemperatureGroup_isValidFalse24hourlyInconsistentValue", t_MinMaxTemperatureGroup_isValidFalse24hourlyInconsistentValue);
   ("MinMaxTemperatureGroup_isValidTrue6hourly", t_MinMaxTemperatureGroup_isValidTrue6hourly);
   ("MinMaxTemperatureGroup_isValidTrue6hourlyAppended", t_MinMaxTemperatureGroup_isValidTrue6hourlyAppended);
   ("MinMaxTemperatureGroup_isValidFalse6hourlyInconsistentValues", t_MinMaxTemperatureGroup_isValidFalse6hourlyInconsistentValues);
   ("MinMaxTemperatureGroup_isValidTrueForecastSingle", t_MinMaxTemperatureGroup_isValidTrueForecastSingle);
   ("MinMaxTemperatureGroup_isValidTrueForecastAppended", t_MinMaxTemperatureGroup_isValidTrueForecastAppended);
   ("MinMaxTemperatureGroup_isValidFalseForecastSingleUnspecifiedPoint", t_MinMaxTemperatureGroup_isValidFalseForecastSingleUnspecifiedPoint);
   ("MinMaxTemperatureGroup_isValidFalseForecastInconsistentValues", t_MinMaxTemperatureGroup_isValidFalseForecastInconsistentValues);
   ("MinMaxTemperatureGroup_isValidFalseForecastInvalidTime", t_MinMaxTemperatureGroup_isValidFalseForecastInvalidTime)] = [].
Proof. vm_compute. reflexivity. Qed.
