(** Generated by tools/gen_tests.py from /repo/test/test_pressuretendencygroup.cpp: the project's own unit tests, run
    against the model. These are tests of the model's fidelity, not properties. *)

From Verif Require Import Prim Regex Float Values Weather Groups1 Groups2 Groups3 Groups4 Parser TestLib.
Local Open Scope string_scope.
Local Open Scope bool_scope.

Definition t_PressureTendencyGroup_pressureDifference : option N :=
    step 20 ((PressureTendencyGroup_parse "52132" RP_RMK md_default)) (fun v1 => 
    chk 21 (Ok (has_value v1)) (
    chk 22 (let! v2 := deref v1 in Ok (has_value (pressureValue (pt_difference v2)))) (
    chk 23 (let! v3 := deref v1 in Ok (PressureUnit_beq (pressureUnit (pt_difference v3)) HECTOPASCAL)) (
    chk 24 (let! v4 := deref v1 in let! v5 := deref (pressureValue (pt_difference v4)) in Ok (near v5 (dlit (66) 5) (dlit (1) 20))) (
    chk 25 (let! v6 := deref v1 in Ok (PtType_beq (pt_type v6) Pt_INCREASING)) (
    None)))))).

Definition t_PressureTendencyGroup_pressureDifferenceNotReported : option N :=
    step 29 ((PressureTendencyGroup_parse "52///" RP_RMK md_default)) (fun v1 => 
    chk 30 (Ok (has_value v1)) (
    chk 31 (let! v2 := deref v1 in Ok (negb (has_value (pressureValue (pt_difference v2))))) (
    chk 32 (let! v3 := deref v1 in Ok (PtType_beq (pt_type v3) Pt_INCREASING)) (
    None)))).

Definition t_PressureTendencyGroup_notReported : option N :=
    step 36 ((PressureTendencyGroup_parse "5////" RP_RMK md_default)) (fun v1 => 
    chk 37 (Ok (has_value v1)) (
    chk 38 (let! v2 := deref v1 in Ok (negb (has_value (pressureValue (pt_difference v2))))) (
    chk 39 (let! v3 := deref v1 in Ok (PtType_beq (pt_type v3) Pt_NOT_REPORTED)) (
    None)))).

Definition t_PressureTendencyGroup_typeIncreasingThenDecreasing : option N :=
    step 49 ((PressureTendencyGroup_parse "50132" RP_RMK md_default)) (fun v1 => 
    chk 50 (Ok (has_value v1)) (
    chk 51 (let! v2 := deref v1 in Ok (PtType_beq (pt_type v2) Pt_INCREASING_THEN_DECREASING)) (
    None))).

Definition t_PressureTendencyGroup_typeIncreasingMoreSlowly : option N :=
    step 55 ((PressureTendencyGroup_parse "51132" RP_RMK md_default)) (fun v1 => 
    chk 56 (Ok (has_value v1)) (
    chk 57 (let! v2 := deref v1 in Ok (PtType_beq (pt_type v2) Pt_INCREASING_MORE_SLOWLY)) (
    None))).

Definition t_PressureTendencyGroup_typeIncreasing : option N :=
    step 61 ((PressureTendencyGroup_parse "52132" RP_RMK md_default)) (fun v1 => 
    chk 62 (Ok (has_value v1)) (
    chk 63 (let! v2 := deref v1 in Ok (PtType_beq (pt_type v2) Pt_INCREASING)) (
    None))).

Definition t_PressureTendencyGroup_typeIncreasingMoreRapidly : option N :=
    step 67 ((PressureTendencyGroup_parse "53132" RP_RMK md_default)) (fun v1 => 
    chk 68 (Ok (has_value v1)) (
    chk 69 (let! v2 := deref v1 in Ok (PtType_beq (pt_type v2) Pt_INCREASING_MORE_RAPIDLY)) (
    None))).

Definition t_PressureTendencyGroup_typeSteady : option N :=
    step 73 ((PressureTendencyGroup_parse "54132" RP_RMK md_default)) (fun v1 => 
    chk 74 (Ok (has_value v1)) (
    chk 75 (let! v2 := deref v1 in Ok (PtType_beq (pt_type v2) Pt_STEADY)) (
    None))).

Definition t_PressureTendencyGroup_typeDecreasingThenIncreasing : option N :=
    step 79 ((PressureTendencyGroup_parse "55132" RP_RMK md_default)) (fun v1 => 
    chk 80 (Ok (has_value v1)) (
    chk 81 (let! v2 := deref v1 in Ok (PtType_beq (pt_type v2) Pt_DECREASING_THEN_INCREASING)) (
    None))).

Definition t_PressureTendencyGroup_typeDecreasingMoreSlowly : option N :=
    step 85 ((PressureTendencyGroup_parse "56132" RP_RMK md_default)) (fun v1 => 
    chk 86 (Ok (has_value v1)) (
    chk 87 (let! v2 := deref v1 in Ok (PtType_beq (pt_type v2) Pt_DECREASING_MORE_SLOWLY)) (
    None))).

Definition t_PressureTendencyGroup_typeDecreasing : option N :=
    step 91 ((PressureTendencyGroup_parse "57132" RP_RMK md_default)) (fun v1 => 
    chk 92 (Ok (has_value v1)) (
    chk 93 (let! v2 := deref v1 in Ok (PtType_beq (pt_type v2) Pt_DECREASING)) (
    None))).

Definition t_PressureTendencyGroup_typeDecreasingMoreRapidly : option N :=
    step 97 ((PressureTendencyGroup_parse "58132" RP_RMK md_default)) (fun v1 => 
    chk 98 (Ok (has_value v1)) (
    chk 99 (let! v2 := deref v1 in Ok (PtType_beq (pt_type v2) Pt_DECREASING_MORE_RAPIDLY)) (
    None))).

Definition t_PressureTendencyGroup_typeNotReported : option N :=
    step 103 ((PressureTendencyGroup_parse "5/132" RP_RMK md_default)) (fun v1 => 
    chk 104 (Ok (has_value v1)) (
    chk 105 (let! v2 := deref v1 in Ok (PtType_beq (pt_type v2) Pt_NOT_REPORTED)) (
    None))).

Definition t_PressureTendencyGroup_pressureRisingRapidly : option N :=
    step 115 ((PressureTendencyGroup_parse "PRESRR" RP_RMK md_default)) (fun v1 => 
    chk 116 (Ok (has_value v1)) (
    chk 117 (let! v2 := deref v1 in Ok (PtType_beq (pt_type v2) Pt_RISING_RAPIDLY)) (
    chk 118 (let! v3 := deref v1 in Ok (negb (Pressure_isReported (pt_difference v3)))) (
    None)))).

Definition t_PressureTendencyGroup_pressureFallingRapidly : option N :=
    step 122 ((PressureTendencyGroup_parse "PRESFR" RP_RMK md_default)) (fun v1 => 
    chk 123 (Ok (has_value v1)) (
    chk 124 (let! v2 := deref v1 in Ok (PtType_beq (pt_type v2) Pt_FALLING_RAPIDLY)) (
    chk 125 (let! v3 := deref v1 in Ok (negb (Pressure_isReported (pt_difference v3)))) (
    None)))).

Definition t_PressureTendencyGroup_wrongReportPart : option N :=
    chk 134 (let! v1 := (PressureTendencyGroup_parse "52132" RP_UNKNOWN md_default) in Ok (negb (has_value v1))) (
    chk 136 (let! v2 := (PressureTendencyGroup_parse "52132" RP_HEADER md_default) in Ok (negb (has_value v2))) (
    chk 138 (let! v3 := (PressureTendencyGroup_parse "52132" RP_METAR md_default) in Ok (negb (has_value v3))) (
    chk 140 (let! v4 := (PressureTendencyGroup_parse "52132" RP_TAF md_default) in Ok (negb (has_value v4))) (
    chk 143 (let! v5 := (PressureTendencyGroup_parse "PRESRR" RP_UNKNOWN md_default) in Ok (negb (has_value v5))) (
    chk 145 (let! v6 := (PressureTendencyGroup_parse "PRESRR" RP_HEADER md_default) in Ok (negb (has_value v6))) (
    chk 147 (let! v7 := (PressureTendencyGroup_parse "PRESRR" RP_METAR md_default) in Ok (negb (has_value v7))) (
    chk 149 (let! v8 := (PressureTendencyGroup_parse "PRESRR" RP_TAF md_default) in Ok (negb (has_value v8))) (
    chk 152 (let! v9 := (PressureTendencyGroup_parse "PRESFR" RP_UNKNOWN md_default) in Ok (negb (has_value v9))) (
    chk 154 (let! v10 := (PressureTendencyGroup_parse "PRESFR" RP_HEADER md_default) in Ok (negb (has_value v10))) (
    chk 156 (let! v11 := (PressureTendencyGroup_parse "PRESFR" RP_METAR md_default) in Ok (negb (has_value v11))) (
    chk 158 (let! v12 := (PressureTendencyGroup_parse "PRESFR" RP_TAF md_default) in Ok (negb (has_value v12))) (
    None)))))))))))).

Definition t_PressureTendencyGroup_wrongFormat : option N :=
    chk 163 (let! v1 := (PressureTendencyGroup_parse "02132" RP_RMK md_default) in Ok (negb (has_value v1))) (
    chk 165 (let! v2 := (PressureTendencyGroup_parse "12132" RP_RMK md_default) in Ok (negb (has_value v2))) (
    chk 167 (let! v3 := (PressureTendencyGroup_parse "22132" RP_RMK md_default) in Ok (negb (has_value v3))) (
    chk 169 (let! v4 := (PressureTendencyGroup_parse "32132" RP_RMK md_default) in Ok (negb (has_value v4))) (
    chk 171 (let! v5 := (PressureTendencyGroup_parse "42132" RP_RMK md_default) in Ok (negb (has_value v5))) (
    chk 173 (let! v6 := (PressureTendencyGroup_parse "62132" RP_RMK md_default) in Ok (negb (has_value v6))) (
    chk 175 (let! v7 := (PressureTendencyGroup_parse "72132" RP_RMK md_default) in Ok (negb (has_value v7))) (
    chk 177 (let! v8 := (PressureTendencyGroup_parse "82132" RP_RMK md_default) in Ok (negb (has_value v8))) (
    chk 179 (let! v9 := (PressureTendencyGroup_parse "92132" RP_RMK md_default) in Ok (negb (has_value v9))) (
    chk 181 (let! v10 := (PressureTendencyGroup_parse "A2132" RP_RMK md_default) in Ok (negb (has_value v10))) (
    chk 184 (let! v11 := (PressureTendencyGroup_parse "59132" RP_RMK md_default) in Ok (negb (has_value v11))) (
    chk 186 (let! v12 := (PressureTendencyGroup_parse "5A132" RP_RMK md_default) in Ok (negb (has_value v12))) (
    chk 189 (let! v13 := (PressureTendencyGroup_parse "5/////" RP_RMK md_default) in Ok (negb (has_value v13))) (
    chk 191 (let! v14 := (PressureTendencyGroup_parse "5///" RP_RMK md_default) in Ok (negb (has_value v14))) (
    chk 194 (let! v15 := (PressureTendencyGroup_parse "520132" RP_RMK md_default) in Ok (negb (has_value v15))) (
    chk 196 (let! v16 := (PressureTendencyGroup_parse "5232" RP_RMK md_default) in Ok (negb (has_value v16))) (
    chk 199 (let! v17 := (PressureTendencyGroup_parse "52A32" RP_RMK md_default) in Ok (negb (has_value v17))) (
    chk 201 (let! v18 := (PressureTendencyGroup_parse "520A2" RP_RMK md_default) in Ok (negb (has_value v18))) (
    chk 203 (let! v19 := (PressureTendencyGroup_parse "5203A" RP_RMK md_default) in Ok (negb (has_value v19))) (
    None))))))))))))))))))).

Definition t_PressureTendencyGroup_trend : option N :=
    chk 214 (Ok (PtTrend_beq (PressureTendency_trend Pt_INCREASING_THEN_DECREASING) Ptt_HIGHER_OR_SAME)) (
    chk 218 (Ok (PtTrend_beq (PressureTendency_trend Pt_INCREASING_MORE_SLOWLY) Ptt_HIGHER)) (
    chk 222 (Ok (PtTrend_beq (PressureTendency_trend Pt_INCREASING) Ptt_HIGHER)) (
    chk 226 (Ok (PtTrend_beq (PressureTendency_trend Pt_INCREASING_MORE_RAPIDLY) Ptt_HIGHER)) (
    chk 230 (Ok (PtTrend_beq (PressureTendency_trend Pt_STEADY) Ptt_SAME)) (
    chk 234 (Ok (PtTrend_beq (PressureTendency_trend Pt_DECREASING_THEN_INCREASING) Ptt_LOWER_OR_SAME)) (
    chk 238 (Ok (PtTrend_beq (PressureTendency_trend Pt_DECREASING_MORE_SLOWLY) Ptt_LOWER)) (
    chk 242 (Ok (PtTrend_beq (PressureTendency_trend Pt_DECREASING) Ptt_LOWER)) (
    chk 246 (Ok (PtTrend_beq (PressureTendency_trend Pt_DECREASING_MORE_RAPIDLY) Ptt_LOWER)) (
    chk 250 (Ok (PtTrend_beq (PressureTendency_trend Pt_NOT_REPORTED) Ptt_NOT_REPORTED)) (
    None)))))))))).

Definition t_PressureTendencyGroup_append : option N :=
    step 270 ((PressureTendencyGroup_parse "56132" RP_RMK md_default)) (fun v1 => 
    chk 271 (Ok (has_value v1)) (
    step 273 ((PressureTendencyGroup_parse "52///" RP_RMK md_default)) (fun v2 => 
    chk 274 (Ok (has_value v2)) (
    step 276 ((PressureTendencyGroup_parse "5/132" RP_RMK md_default)) (fun v3 => 
    chk 277 (Ok (has_value v3)) (
    step 279 ((PressureTendencyGroup_parse "5////" RP_RMK md_default)) (fun v4 => 
    chk 280 (Ok (has_value v4)) (
    step 282 ((PressureTendencyGroup_parse "PRESRR" RP_RMK md_default)) (fun v5 => 
    chk 283 (Ok (has_value v5)) (
    step 285 ((PressureTendencyGroup_parse "PRESFR" RP_RMK md_default)) (fun v6 => 
    chk 286 (Ok (has_value v6)) (
    step 288 (let! v7 := deref v1 in PressureTendencyGroup_append v7 "56132" RP_RMK md_default) (fun p => let v8 := Some (fst p) in let v9 := snd p in 
    chk 288 (Ok (AppendResult_beq v9 NOT_APPENDED)) (
    step 290 (let! v10 := deref v8 in PressureTendencyGroup_append v10 "52///" RP_RMK md_default) (fun p => let v11 := Some (fst p) in let v12 := snd p in 
    chk 290 (Ok (AppendResult_beq v12 NOT_APPENDED)) (
    step 292 (let! v13 := deref v11 in PressureTendencyGroup_append v13 "5/132" RP_RMK md_default) (fun p => let v14 := Some (fst p) in let v15 := snd p in 
    chk 292 (Ok (AppendResult_beq v15 NOT_APPENDED)) (
    step 294 (let! v16 := deref v14 in PressureTendencyGroup_append v16 "5////" RP_RMK md_default) (fun p => let v17 := Some (fst p) in let v18 := snd p in 
    chk 294 (Ok (AppendResult_beq v18 NOT_APPENDED)) (
    step 296 (let! v19 := deref v17 in PressureTendencyGroup_append v19 "PRESRR" RP_RMK md_default) (fun p => let v20 := Some (fst p) in let v21 := snd p in 
    chk 296 (Ok (AppendResult_beq v21 NOT_APPENDED)) (
    step 298 (let! v22 := deref v20 in PressureTendencyGroup_append v22 "PRESFR" RP_RMK md_default) (fun p => let v23 := Some (fst p) in let v24 := snd p in 
    chk 298 (Ok (AppendResult_beq v24 NOT_APPENDED)) (
    step 300 (let! v25 := deref v23 in PressureTendencyGroup_append v25 "RMK" RP_RMK md_default) (fun p => let v26 := Some (fst p) in let v27 := snd p in 
    chk 300 (Ok (AppendResult_beq v27 NOT_APPENDED)) (
    step 302 (let! v28 := deref v26 in PressureTendencyGroup_append v28 "TEST" RP_RMK md_default) (fun p => let v29 := Some (fst p) in let v30 := snd p in 
    chk 302 (Ok (AppendResult_beq v30 NOT_APPENDED)) (
    step 305 (let! v31 := deref v2 in PressureTendencyGroup_append v31 "56132" RP_RMK md_default) (fun p => let v32 := Some (fst p) in let v33 := snd p in 
    chk 305 (Ok (AppendResult_beq v33 NOT_APPENDED)) (
    step 307 (let! v34 := deref v32 in PressureTendencyGroup_append v34 "52///" RP_RMK md_default) (fun p => let v35 := Some (fst p) in let v36 := snd p in 
    chk 307 (Ok (AppendResult_beq v36 NOT_APPENDED)) (
    step 309 (let! v37 := deref v35 in PressureTendencyGroup_append v37 "5/132" RP_RMK md_default) (fun p => let v38 := Some (fst p) in let v39 := snd p in 
    chk 309 (Ok (AppendResult_beq v39 NOT_APPENDED)) (
    step 311 (let! v40 := deref v38 in PressureTendencyGroup_append v40 "5////" RP_RMK md_default) (fun p => let v41 := Some (fst p) in let v42 := snd p in 
    chk 311 (Ok (AppendResult_beq v42 NOT_APPENDED)) (
    step 313 (let! v43 := deref v41 in PressureTendencyGroup_append v43 "PRESRR" RP_RMK md_default) (fun p => let v44 := Some (fst p) in let v45 := snd p in 
    chk 313 (Ok (AppendResult_beq v45 NOT_APPENDED)) (
    step 315 (let! v46 := deref v44 in PressureTendencyGroup_append v46 "PRESFR" RP_RMK md_default) (fun p => let v47 := Some (fst p) in let v48 := snd p in 
    chk 315 (Ok (AppendResult_beq v48 NOT_APPENDED)) (
    step 317 (let! v49 := deref v47 in PressureTendencyGroup_append v49 "RMK" RP_RMK md_default) (fun p => let v50 := Some (fst p) in let v51 := snd p in 
    chk 317 (Ok (AppendResult_beq v51 NOT_APPENDED)) (
    step 319 (let! v52 := deref v50 in PressureTendencyGroup_append v52 "TEST" RP_RMK md_default) (fun p => let v53 := Some (fst p) in let v54 := snd p in 
    chk 319 (Ok (AppendResult_beq v54 NOT_APPENDED)) (
    step 322 (let! v55 := deref v3 in PressureTendencyGroup_append v55 "56132" RP_RMK md_default) (fun p => let v56 := Some (fst p) in let v57 := snd p in 
    chk 322 (Ok (AppendResult_beq v57 NOT_APPENDED)) (
    step 324 (let! v58 := deref v56 in PressureTendencyGroup_append v58 "52///" RP_RMK md_default) (fun p => let v59 := Some (fst p) in let v60 := snd p in 
    chk 324 (Ok (AppendResult_beq v60 NOT_APPENDED)) (
    step 326 (let! v61 := deref v59 in PressureTendencyGroup_append v61 "5/132" RP_RMK md_default) (fun p => let v62 := Some (fst p) in let v63 := snd p in 
    chk 326 (Ok (AppendResult_beq v63 NOT_APPENDED)) (
    step 328 (let! v64 := deref v62 in PressureTendencyGroup_append v64 "5////" RP_RMK md_default) (fun p => let v65 := Some (fst p) in let v66 := snd p in 
    chk 328 (Ok (AppendResult_beq v66 NOT_APPENDED)) (
    step 330 (let! v67 := deref v65 in PressureTendencyGroup_append v67 "PRESRR" RP_RMK md_default) (fun p => let v68 := Some (fst p) in let v69 := snd p in 
    chk 330 (Ok (AppendResult_beq v69 NOT_APPENDED)) (
    step 332 (let! v70 := deref v68 in PressureTendencyGroup_append v70 "PRESFR" RP_RMK md_default) (fun p => let v71 := Some (fst p) in let v72 := snd p in 
    chk 332 (Ok (AppendResult_beq v72 NOT_APPENDED)) (
    step 334 (let! v73 := deref v71 in PressureTendencyGroup_append v73 "RMK" RP_RMK md_default) (fun p => let v74 := Some (fst p) in let v75 := snd p in 
    chk 334 (Ok (AppendResult_beq v75 NOT_APPENDED)) (
    step 336 (let! v76 := deref v74 in PressureTendencyGroup_append v76 "TEST" RP_RMK md_default) (fun p => let v77 := Some (fst p) in let v78 := snd p in 
    chk 336 (Ok (AppendResult_beq v78 NOT_APPENDED)) (
    step 339 (let! v79 := deref v4 in PressureTendencyGroup_append v79 "56132" RP_RMK md_default) (fun p => let v80 := Some (fst p) in let v81 := snd p in 
    chk 339 (Ok (AppendResult_beq v81 NOT_APPENDED)) (
    step 341 (let! v82 := deref v80 in PressureTendencyGroup_append v82 "52///" RP_RMK md_default) (fun p => let v83 := Some (fst p) in let v84 := snd p in 
    chk 341 (Ok (AppendResult_beq v84 NOT_APPENDED)) (
    step 343 (let! v85 := deref v83 in PressureTendencyGroup_append v85 "5/132" RP_RMK md_default) (fun p => let v86 := Some (fst p) in let v87 := snd p in 
    chk 343 (Ok (AppendResult_beq v87 NOT_APPENDED)) (
    step 345 (let! v88 := deref v86 in PressureTendencyGroup_append v88 "5////" RP_RMK md_default) (fun p => let v89 := Some (fst p) in let v90 := snd p in 
    chk 345 (Ok (AppendResult_beq v90 NOT_APPENDED)) (
    step 347 (let! v91 := deref v89 in PressureTendencyGroup_append v91 "PRESRR" RP_RMK md_default) (fun p => let v92 := Some (fst p) in let v93 := snd p in 
    chk 347 (Ok (AppendResult_beq v93 NOT_APPENDED)) (
    step 349 (let! v94 := deref v92 in PressureTendencyGroup_append v94 "PRESFR" RP_RMK md_default) (fun p => let v95 := Some (fst p) in let v96 := snd p in 
    chk 349 (Ok (AppendResult_beq v96 NOT_APPENDED)) (
    step 351 (let! v97 := deref v95 in PressureTendencyGroup_append v97 "RMK" RP_RMK md_default) (fun p => let v98 := Some (fst p) in let v99 := snd p in 
    chk 351 (Ok (AppendResult_beq v99 NOT_APPENDED)) (
    step 353 (let! v100 := deref v98 in PressureTendencyGroup_append v100 "TEST" RP_RMK md_default) (fun p => let v101 := Some (fst p) in let v102 := snd p in 
    chk 353 (Ok (AppendResult_beq v102 NOT_APPENDED)) (
    step 356 (let! v103 := deref v5 in PressureTendencyGroup_append v103 "56132" RP_RMK md_default) (fun p => let v104 := Some (fst p) in let v105 := snd p in 
    chk 356 (Ok (AppendResult_beq v105 NOT_APPENDED)) (
    step 358 (let! v106 := deref v104 in PressureTendencyGroup_append v106 "52///" RP_RMK md_default) (fun p => let v107 := Some (fst p) in let v108 := snd p in 
    chk 358 (Ok (AppendResult_beq v108 NOT_APPENDED)) (
    step 360 (let! v109 := deref v107 in PressureTendencyGroup_append v109 "5/132" RP_RMK md_default) (fun p => let v110 := Some (fst p) in let v111 := snd p in 
    chk 360 (Ok (AppendResult_beq v111 NOT_APPENDED)) (
    step 362 (let! v112 := deref v110 in PressureTendencyGroup_append v112 "5////" RP_RMK md_default) (fun p => let v113 := Some (fst p) in let v114 := snd p in 
    chk 362 (Ok (AppendResult_beq v114 NOT_APPENDED)) (
    step 364 (let! v115 := deref v113 in PressureTendencyGroup_append v115 "PRESRR" RP_RMK md_default) (fun p => let v116 := Some (fst p) in let v117 := snd p in 
    chk 364 (Ok (AppendResult_beq v117 NOT_APPENDED)) (
    step 366 (let! v118 := deref v116 in PressureTendencyGroup_append v118 "PRESFR" RP_RMK md_default) (fun p => let v119 := Some (fst p) in let v120 := snd p in 
    chk 366 (Ok (AppendResult_beq v120 NOT_APPENDED)) (
    step 368 (let! v121 := deref v119 in PressureTendencyGroup_append v121 "RMK" RP_RMK md_default) (fun p => let v122 := Some (fst p) in let v123 := snd p in 
    chk 368 (Ok (AppendResult_beq v123 NOT_APPENDED)) (
    step 370 (let! v124 := deref v122 in PressureTendencyGroup_append v124 "TEST" RP_RMK md_default) (fun p => let v125 := Some (fst p) in let v126 := snd p in 
    chk 370 (Ok (AppendResult_beq v126 NOT_APPENDED)) (
    step 373 (let! v127 := deref v6 in PressureTendencyGroup_append v127 "56132" RP_RMK md_default) (fun p => let v128 := Some (fst p) in let v129 := snd p in 
    chk 373 (Ok (AppendResult_beq v129 NOT_APPENDED)) (
    step 375 (let! v130 := deref v128 in PressureTendencyGroup_append v130 "52///" RP_RMK md_default) (fun p => let v131 := Some (fst p) in let v132 := snd p in 
    chk 375 (Ok (AppendResult_beq v132 NOT_APPENDED)) (
    step 377 (let! v133 := deref v131 in PressureTendencyGroup_append v133 "5/132" RP_RMK md_default) (fun p => let v134 := Some (fst p) in let v135 := snd p in 
    chk 377 (Ok (AppendResult_beq v135 NOT_APPENDED)) (
    step 379 (let! v136 := deref v134 in PressureTendencyGroup_append v136 "5////" RP_RMK md_default) (fun p => let v137 := Some (fst p) in let v138 := snd p in 
    chk 379 (Ok (AppendResult_beq v138 NOT_APPENDED)) (
    step 381 (let! v139 := deref v137 in PressureTendencyGroup_append v139 "PRESRR" RP_RMK md_default) (fun p => let v140 := Some (fst p) in let v141 := snd p in 
    chk 381 (Ok (AppendResult_beq v141 NOT_APPENDED)) (
    step 383 (let! v142 := deref v140 in PressureTendencyGroup_append v142 "PRESFR" RP_RMK md_default) (fun p => let v143 := Some (fst p) in let v144 := snd p in 
    chk 383 (Ok (AppendResult_beq v144 NOT_APPENDED)) (
    step 385 (let! v145 := deref v143 in PressureTendencyGroup_append v145 "RMK" RP_RMK md_default) (fun p => let v146 := Some (fst p) in let v147 := snd p in 
    chk 385 (Ok (AppendResult_beq v147 NOT_APPENDED)) (
    step 387 (let! v148 := deref v146 in PressureTendencyGroup_append v148 "TEST" RP_RMK md_default) (fun p => let v149 := Some (fst p) in let v150 := snd p in 
    chk 387 (Ok (AppendResult_beq v150 NOT_APPENDED)) (
    None)))))))))))))))))))))))))))))))))))))))))))))))))))))))))))))))))))))))))))))))))))))))))))))))))))))))))))).

Definition t_PressureTendencyGroup_isValid : option N :=
    step 397 ((PressureTendencyGroup_parse "56132" RP_RMK md_default)) (fun v1 => 
    chk 398 (Ok (has_value v1)) (
    chk 399 (let! v2 := deref v1 in Ok (PressureTendencyGroup_isValid v2)) (
    step 401 ((PressureTendencyGroup_parse "52///" RP_RMK md_default)) (fun v3 => 
    chk 402 (Ok (has_value v3)) (
    chk 403 (let! v4 := deref v3 in Ok (PressureTendencyGroup_isValid v4)) (
    step 405 ((PressureTendencyGroup_parse "5/132" RP_RMK md_default)) (fun v5 => 
    chk 406 (Ok (has_value v5)) (
    chk 407 (let! v6 := deref v5 in Ok (PressureTendencyGroup_isValid v6)) (
    step 409 ((PressureTendencyGroup_parse "5////" RP_RMK md_default)) (fun v7 => 
    chk 410 (Ok (has_value v7)) (
    chk 411 (let! v8 := deref v7 in Ok (PressureTendencyGroup_isValid v8)) (
    step 413 ((PressureTendencyGroup_parse "PRESRR" RP_RMK md_default)) (fun v9 => 
    chk 414 (Ok (has_value v9)) (
    chk 415 (let! v10 := deref v9 in Ok (PressureTendencyGroup_isValid v10)) (
    step 417 ((PressureTendencyGroup_parse "PRESFR" RP_RMK md_default)) (fun v11 => 
    chk 418 (Ok (has_value v11)) (
    chk 419 (let! v12 := deref v11 in Ok (PressureTendencyGroup_isValid v12)) (
    None)))))))))))))))))).

Example tests_pressuretendencygroup_pass : failures
  [("PressureTendencyGroup_pressureDifference", t_PressureTendencyGroup_pressureDifference);
   ("PressureTendencyGroup_pressureDifferenceNotReported", t_PressureTendencyGroup_pressureDifferenceNotReported);
   ("PressureTendencyGroup_notReported", t_PressureTendencyGroup_notReported);
   ("PressureTendencyGroup_typeIncreasingThenDecreasing", t_PressureTendencyGroup_typeIncreasingThenDecreasing);
   ("PressureTendencyGroup_typeIncreasingMoreSlowly", t_PressureTendencyGroup_typeIncreasingMoreSlowly);
   ("PressureTendencyGroup_typeIncreasing", t_PressureTendencyGroup_typeIncreasing);
   ("PressureTendencyGroup_typeIncreasingMoreRapidly", t_PressureTendencyGroup_typeIncreasingMoreRapidly);
   ("PressureTendencyGroup_typeSteady", t_PressureTendencyGroup_typeSteady);
   ("PressureTendencyGroup_typeDecreasingThenIncreasing", t_PressureTendencyGroup_typeDecreasingThenIncreasing);
   ("PressureTendencyGroup_typeDecreasingMoreSlowly", t_PressureTendencyGroup_typeDecreasingMoreSlowly);
   ("PressureTendencyGroup_typeDecreasing", t_PressureTendencyGroup_typeDecreasing);
   ("PressureTendencyGroup_typeDecreasingMoreRapidly", t_PressureTendencyGroup_typeDecreasingMoreRapidly);
   ("PressureTendencyGroup_typeNotReported", t_PressureTendencyGroup_typeNotReported);
   ("PressureTendencyGroup_pressureRisingRapidly", t_PressureTendencyGroup_pressureRisingRapidly);
   ("PressureTendencyGroup_pressureFallingRapidly", t_PressureTendencyGroup_pressureFallingRapidly);
   ("PressureTendencyGroup_wrongReportPart", t_PressureTendencyGroup_wrongReportPart);
   ("PressureTendencyGroup_wrongFormat", t_PressureTendencyGroup_wrongFormat);
   ("PressureTendencyGroup_trend", t_PressureTendencyGroup_trend);
   ("PressureTendencyGroup_append", t_PressureTendencyGroup_append);
   ("PressureTendencyGroup_isValid", t_PressureTendencyGroup_isValid)] = [].
Proof. vm_compute. reflexivity. Qed.
