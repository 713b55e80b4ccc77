(** Generated by tools/gen_tests.py from /repo/test/test_cloudtypesgroup.cpp: the project's own unit tests, run
    against the model. These are tests of the model's fidelity, not properties. *)

From Verif Require Import Prim Regex Float Values Weather Groups1 Groups2 Groups3 Groups4 Parser TestLib.
Local Open Scope string_scope.
Local Open Scope bool_scope.

Definition t_CloudTypesGroup_parseFormatWithoutHeightSingleLayer : option N :=
    step 22 ((CloudTypesGroup_parse "CB5" RP_RMK md_default)) (fun v1 => 
    chk 23 (Ok (has_value v1)) (
    step 24 (deref v1) (fun v2 => 
    chk 25 (Ok (N.eqb (N.of_nat (List.length (CloudTypesGroup_cloudTypes v2))) 1%N)) (
    chk 26 (let! v3 := deref (List.nth_error (CloudTypesGroup_cloudTypes v2) 0%nat) in Ok (CtType_beq (ctTp v3) Ct_CUMULONIMBUS)) (
    chk 27 (let! v4 := deref (List.nth_error (CloudTypesGroup_cloudTypes v2) 0%nat) in Ok (negb (Distance_isReported (ctHt v4)))) (
    chk 28 (let! v5 := deref (List.nth_error (CloudTypesGroup_cloudTypes v2) 0%nat) in Ok (N.eqb (ctOkt v5) 5%N)) (
    None))))))).

Definition t_CloudTypesGroup_parseFormatWithoutHeightObscurationAndCloudLayer : option N :=
    step 32 ((CloudTypesGroup_parse "IC1SC3" RP_RMK md_default)) (fun v1 => 
    chk 33 (Ok (has_value v1)) (
    step 34 (deref v1) (fun v2 => 
    chk 35 (Ok (N.eqb (N.of_nat (List.length (CloudTypesGroup_cloudTypes v2))) 2%N)) (
    chk 36 (let! v3 := deref (List.nth_error (CloudTypesGroup_cloudTypes v2) 0%nat) in Ok (CtType_beq (ctTp v3) Ct_ICE_CRYSTALS)) (
    chk 37 (let! v4 := deref (List.nth_error (CloudTypesGroup_cloudTypes v2) 0%nat) in Ok (negb (Distance_isReported (ctHt v4)))) (
    chk 38 (let! v5 := deref (List.nth_error (CloudTypesGroup_cloudTypes v2) 0%nat) in Ok (N.eqb (ctOkt v5) 1%N)) (
    chk 39 (let! v6 := deref (List.nth_error (CloudTypesGroup_cloudTypes v2) 1%nat) in Ok (CtType_beq (ctTp v6) Ct_STRATOCUMULUS)) (
    chk 40 (let! v7 := deref (List.nth_error (CloudTypesGroup_cloudTypes v2) 1%nat) in Ok (negb (Distance_isReported (ctHt v7)))) (
    chk 41 (let! v8 := deref (List.nth_error (CloudTypesGroup_cloudTypes v2) 1%nat) in Ok (N.eqb (ctOkt v8) 3%N)) (
    None)))))))))).

Definition t_CloudTypesGroup_parseFormatWithoutHeightThreeLayers : option N :=
    step 45 ((CloudTypesGroup_parse "SC1AC6CI1" RP_RMK md_default)) (fun v1 => 
    chk 46 (Ok (has_value v1)) (
    step 47 (deref v1) (fun v2 => 
    chk 48 (Ok (N.eqb (N.of_nat (List.length (CloudTypesGroup_cloudTypes v2))) 3%N)) (
    chk 49 (let! v3 := deref (List.nth_error (CloudTypesGroup_cloudTypes v2) 0%nat) in Ok (CtType_beq (ctTp v3) Ct_STRATOCUMULUS)) (
    chk 50 (let! v4 := deref (List.nth_error (CloudTypesGroup_cloudTypes v2) 0%nat) in Ok (negb (Distance_isReported (ctHt v4)))) (
    chk 51 (let! v5 := deref (List.nth_error (CloudTypesGroup_cloudTypes v2) 0%nat) in Ok (N.eqb (ctOkt v5) 1%N)) (
    chk 52 (let! v6 := deref (List.nth_error (CloudTypesGroup_cloudTypes v2) 1%nat) in Ok (CtType_beq (ctTp v6) Ct_ALTOCUMULUS)) (
    chk 53 (let! v7 := deref (List.nth_error (CloudTypesGroup_cloudTypes v2) 1%nat) in Ok (negb (Distance_isReported (ctHt v7)))) (
    chk 54 (let! v8 := deref (List.nth_error (CloudTypesGroup_cloudTypes v2) 1%nat) in Ok (N.eqb (ctOkt v8) 6%N)) (
    chk 55 (let! v9 := deref (List.nth_error (CloudTypesGroup_cloudTypes v2) 2%nat) in Ok (CtType_beq (ctTp v9) Ct_CIRRUS)) (
    chk 56 (let! v10 := deref (List.nth_error (CloudTypesGroup_cloudTypes v2) 2%nat) in Ok (negb (Distance_isReported (ctHt v10)))) (
    chk 57 (let! v11 := deref (List.nth_error (CloudTypesGroup_cloudTypes v2) 2%nat) in Ok (N.eqb (ctOkt v11) 1%N)) (
    None))))))))))))).

Definition t_CloudTypesGroup_parseFormatWithoutHeightThreeLayersAndObscuration : option N :=
    step 61 ((CloudTypesGroup_parse "BLSN1SC1SC1CI3" RP_RMK md_default)) (fun v1 => 
    chk 62 (Ok (has_value v1)) (
    step 63 (deref v1) (fun v2 => 
    chk 64 (Ok (N.eqb (N.of_nat (List.length (CloudTypesGroup_cloudTypes v2))) 4%N)) (
    chk 65 (let! v3 := deref (List.nth_error (CloudTypesGroup_cloudTypes v2) 0%nat) in Ok (CtType_beq (ctTp v3) Ct_BLOWING_SNOW)) (
    chk 66 (let! v4 := deref (List.nth_error (CloudTypesGroup_cloudTypes v2) 0%nat) in Ok (negb (Distance_isReported (ctHt v4)))) (
    chk 67 (let! v5 := deref (List.nth_error (CloudTypesGroup_cloudTypes v2) 0%nat) in Ok (N.eqb (ctOkt v5) 1%N)) (
    chk 68 (let! v6 := deref (List.nth_error (CloudTypesGroup_cloudTypes v2) 1%nat) in Ok (CtType_beq (ctTp v6) Ct_STRATOCUMULUS)) (
    chk 69 (let! v7 := deref (List.nth_error (CloudTypesGroup_cloudTypes v2) 1%nat) in Ok (negb (Distance_isReported (ctHt v7)))) (
    chk 70 (let! v8 := deref (List.nth_error (CloudTypesGroup_cloudTypes v2) 1%nat) in Ok (N.eqb (ctOkt v8) 1%N)) (
    chk 71 (let! v9 := deref (List.nth_error (CloudTypesGroup_cloudTypes v2) 2%nat) in Ok (CtType_beq (ctTp v9) Ct_STRATOCUMULUS)) (
    chk 72 (let! v10 := deref (List.nth_error (CloudTypesGroup_cloudTypes v2) 2%nat) in Ok (negb (Distance_isReported (ctHt v10)))) (
    chk 73 (let! v11 := deref (List.nth_error (CloudTypesGroup_cloudTypes v2) 2%nat) in Ok (N.eqb (ctOkt v11) 1%N)) (
    chk 74 (let! v12 := deref (List.nth_error (CloudTypesGroup_cloudTypes v2) 3%nat) in Ok (CtType_beq (ctTp v12) Ct_CIRRUS)) (
    chk 75 (let! v13 := deref (List.nth_error (CloudTypesGroup_cloudTypes v2) 3%nat) in Ok (negb (Distance_isReported (ctHt v13)))) (
    chk 76 (let! v14 := deref (List.nth_error (CloudTypesGroup_cloudTypes v2) 3%nat) in Ok (N.eqb (ctOkt v14) 3%N)) (
    None)))))))))))))))).

Definition t_CloudTypesGroup_parseFormatWithoutHeightFiveLayers : option N :=
    step 80 ((CloudTypesGroup_parse "CF1CU3SC1CS1CI2" RP_RMK md_default)) (fun v1 => 
    chk 81 (Ok (has_value v1)) (
    step 82 (deref v1) (fun v2 => 
    chk 83 (Ok (N.eqb (N.of_nat (List.length (CloudTypesGroup_cloudTypes v2))) 5%N)) (
    chk 84 (let! v3 := deref (List.nth_error (CloudTypesGroup_cloudTypes v2) 0%nat) in Ok (CtType_beq (ctTp v3) Ct_CUMULUS_FRACTUS)) (
    chk 85 (let! v4 := deref (List.nth_error (CloudTypesGroup_cloudTypes v2) 0%nat) in Ok (negb (Distance_isReported (ctHt v4)))) (
    chk 86 (let! v5 := deref (List.nth_error (CloudTypesGroup_cloudTypes v2) 0%nat) in Ok (N.eqb (ctOkt v5) 1%N)) (
    chk 87 (let! v6 := deref (List.nth_error (CloudTypesGroup_cloudTypes v2) 1%nat) in Ok (CtType_beq (ctTp v6) Ct_CUMULUS)) (
    chk 88 (let! v7 := deref (List.nth_error (CloudTypesGroup_cloudTypes v2) 1%nat) in Ok (negb (Distance_isReported (ctHt v7)))) (
    chk 89 (let! v8 := deref (List.nth_error (CloudTypesGroup_cloudTypes v2) 1%nat) in Ok (N.eqb (ctOkt v8) 3%N)) (
    chk 90 (let! v9 := deref (List.nth_error (CloudTypesGroup_cloudTypes v2) 2%nat) in Ok (CtType_beq (ctTp v9) Ct_STRATOCUMULUS)) (
    chk 91 (let! v10 := deref (List.nth_error (CloudTypesGroup_cloudTypes v2) 2%nat) in Ok (negb (Distance_isReported (ctHt v10)))) (
    chk 92 (let! v11 := deref (List.nth_error (CloudTypesGroup_cloudTypes v2) 2%nat) in Ok (N.eqb (ctOkt v11) 1%N)) (
    chk 93 (let! v12 := deref (List.nth_error (CloudTypesGroup_cloudTypes v2) 3%nat) in Ok (CtType_beq (ctTp v12) Ct_CIRROSTRATUS)) (
    chk 94 (let! v13 := deref (List.nth_error (CloudTypesGroup_cloudTypes v2) 3%nat) in Ok (negb (Distance_isReported (ctHt v13)))) (
    chk 95 (let! v14 := deref (List.nth_error (CloudTypesGroup_cloudTypes v2) 3%nat) in Ok (N.eqb (ctOkt v14) 1%N)) (
    chk 96 (let! v15 := deref (List.nth_error (CloudTypesGroup_cloudTypes v2) 4%nat) in Ok (CtType_beq (ctTp v15) Ct_CIRRUS)) (
    chk 97 (let! v16 := deref (List.nth_error (CloudTypesGroup_cloudTypes v2) 4%nat) in Ok (negb (Distance_isReported (ctHt v16)))) (
    chk 98 (let! v17 := deref (List.nth_error (CloudTypesGroup_cloudTypes v2) 4%nat) in Ok (N.eqb (ctOkt v17) 2%N)) (
    None))))))))))))))))))).

Definition t_CloudTypesGroup_parseFormatWithoutHeightTooManyLayers : option N :=
    step 102 ((CloudTypesGroup_parse "SC1SC1SC1SC1SC1SC1SC1SC1SC1" RP_RMK md_default)) (fun v1 => 
    chk 104 (Ok (has_value v1)) (
    step 105 (deref v1) (fun v2 => 
    chk 106 (Ok (N.eqb (N.of_nat (List.length (CloudTypesGroup_cloudTypes v2))) 8%N)) (
    None)))).

Definition t_CloudTypesGroup_parseFormatWithoutHeightWrongReportPart : option N :=
    chk 110 (let! v1 := (CloudTypesGroup_parse "CB5" RP_UNKNOWN md_default) in Ok (negb (has_value v1))) (
    chk 111 (let! v2 := (CloudTypesGroup_parse "CB5" RP_HEADER md_default) in Ok (negb (has_value v2))) (
    chk 112 (let! v3 := (CloudTypesGroup_parse "CB5" RP_METAR md_default) in Ok (negb (has_value v3))) (
    chk 113 (let! v4 := (CloudTypesGroup_parse "CB5" RP_TAF md_default) in Ok (negb (has_value v4))) (
    None)))).

Definition t_CloudTypesGroup_parseFormatWithoutHeightWrongFormat : option N :=
    chk 117 (let! v1 := (CloudTypesGroup_parse "AB5" RP_RMK md_default) in Ok (negb (has_value v1))) (
    chk 118 (let! v2 := (CloudTypesGroup_parse "AC/" RP_RMK md_default) in Ok (negb (has_value v2))) (
    chk 119 (let! v3 := (CloudTypesGroup_parse "//7" RP_RMK md_default) in Ok (negb (has_value v3))) (
    chk 120 (let! v4 := (CloudTypesGroup_parse "ACX" RP_RMK md_default) in Ok (negb (has_value v4))) (
    chk 121 (let! v5 := (CloudTypesGroup_parse "AB5CF2CI3" RP_RMK md_default) in Ok (negb (has_value v5))) (
    chk 122 (let! v6 := (CloudTypesGroup_parse "CF2AB5CI3" RP_RMK md_default) in Ok (negb (has_value v6))) (
    chk 123 (let! v7 := (CloudTypesGroup_parse "CF2CI3AB5" RP_RMK md_default) in Ok (negb (has_value v7))) (
    chk 124 (let! v8 := (CloudTypesGroup_parse "CF2/CI3" RP_RMK md_default) in Ok (negb (has_value v8))) (
    None)))))))).

Definition t_CloudTypesGroup_parseFormatWithHeight : option N :=
    step 135 ((CloudTypesGroup_parse "8NS035" RP_RMK md_default)) (fun v1 => 
    chk 136 (Ok (has_value v1)) (
    step 137 (deref v1) (fun v2 => 
    chk 138 (Ok (N.eqb (N.of_nat (List.length (CloudTypesGroup_cloudTypes v2))) 1%N)) (
    chk 139 (let! v3 := deref (List.nth_error (CloudTypesGroup_cloudTypes v2) 0%nat) in Ok (CtType_beq (ctTp v3) Ct_NIMBOSTRATUS)) (
    chk 140 (let! v4 := deref (List.nth_error (CloudTypesGroup_cloudTypes v2) 0%nat) in Ok (Distance_isReported (ctHt v4))) (
    chk 141 (let! v5 := deref (List.nth_error (CloudTypesGroup_cloudTypes v2) 0%nat) in Ok (DistModifier_beq (distModifier (ctHt v5)) DM_NONE)) (
    chk 142 (let! v6 := deref (List.nth_error (CloudTypesGroup_cloudTypes v2) 0%nat) in Ok (has_value (Distance_distance (ctHt v6)))) (
    chk 143 (let! v7 := deref (List.nth_error (CloudTypesGroup_cloudTypes v2) 0%nat) in let! v8 := deref (Distance_distance (ctHt v7)) in Ok (near v8 (dlit (3500) 1) (dlit (1) 2))) (
    chk 144 (let! v9 := deref (List.nth_error (CloudTypesGroup_cloudTypes v2) 0%nat) in Ok (DistUnit_beq (distUnit (ctHt v9)) FEET)) (
    chk 145 (let! v10 := deref (List.nth_error (CloudTypesGroup_cloudTypes v2) 0%nat) in Ok (N.eqb (ctOkt v10) 8%N)) (
    chk 146 (let! v11 := deref (List.nth_error (CloudTypesGroup_cloudTypes v2) 0%nat) in Ok (CloudType_isValid v11)) (
    None)))))))))))).

Definition t_CloudTypesGroup_parseFormatWithHeightWrongReportPart : option N :=
    chk 150 (let! v1 := (CloudTypesGroup_parse "8NS035" RP_UNKNOWN md_default) in Ok (negb (has_value v1))) (
    chk 151 (let! v2 := (CloudTypesGroup_parse "8NS035" RP_HEADER md_default) in Ok (negb (has_value v2))) (
    chk 152 (let! v3 := (CloudTypesGroup_parse "8NS035" RP_METAR md_default) in Ok (negb (has_value v3))) (
    chk 153 (let! v4 := (CloudTypesGroup_parse "8NS035" RP_TAF md_default) in Ok (negb (has_value v4))) (
    None)))).

Definition t_CloudTypesGroup_parseFormatWithHeightWrongFormat : option N :=
    chk 157 (let! v1 := (CloudTypesGroup_parse "8ZZ035" RP_RMK md_default) in Ok (negb (has_value v1))) (
    chk 158 (let! v2 := (CloudTypesGroup_parse "/NS035" RP_RMK md_default) in Ok (negb (has_value v2))) (
    chk 159 (let! v3 := (CloudTypesGroup_parse "8//035" RP_RMK md_default) in Ok (negb (has_value v3))) (
    chk 160 (let! v4 := (CloudTypesGroup_parse "8///035" RP_RMK md_default) in Ok (negb (has_value v4))) (
    chk 161 (let! v5 := (CloudTypesGroup_parse "8NS///" RP_RMK md_default) in Ok (negb (has_value v5))) (
    chk 162 (let! v6 := (CloudTypesGroup_parse "//////" RP_RMK md_default) in Ok (negb (has_value v6))) (
    chk 163 (let! v7 := (CloudTypesGroup_parse "ANS035" RP_RMK md_default) in Ok (negb (has_value v7))) (
    chk 164 (let! v8 := (CloudTypesGroup_parse "8NSA35" RP_RMK md_default) in Ok (negb (has_value v8))) (
    chk 165 (let! v9 := (CloudTypesGroup_parse "8NS03A" RP_RMK md_default) in Ok (negb (has_value v9))) (
    chk 166 (let! v10 := (CloudTypesGroup_parse "8NS0035" RP_RMK md_default) in Ok (negb (has_value v10))) (
    chk 167 (let! v11 := (CloudTypesGroup_parse "8NS35" RP_RMK md_default) in Ok (negb (has_value v11))) (
    None))))))))))).

Definition t_CloudTypesGroup_appendGroupsWithoutHeight : option N :=
    step 183 ((CloudTypesGroup_parse "AC4CI6" RP_RMK md_default)) (fun v1 => 
    chk 185 (Ok (has_value v1)) (
    step 187 ((CloudTypesGroup_parse "SC3" RP_RMK md_default)) (fun v2 => 
    chk 189 (Ok (has_value v2)) (
    step 191 ((CloudTypesGroup_parse "3CU012" RP_RMK md_default)) (fun v3 => 
    chk 193 (Ok (has_value v2)) (
    step 195 (let! v4 := deref v2 in CloudTypesGroup_append v4 "SC3" RP_RMK md_default) (fun p => let v5 := Some (fst p) in let v6 := snd p in 
    chk 195 (Ok (AppendResult_beq v6 NOT_APPENDED)) (
    step 197 (let! v7 := deref v5 in CloudTypesGroup_append v7 "AC4CI6" RP_RMK md_default) (fun p => let v8 := Some (fst p) in let v9 := snd p in 
    chk 197 (Ok (AppendResult_beq v9 NOT_APPENDED)) (
    step 199 (let! v10 := deref v8 in CloudTypesGroup_append v10 "3CU012" RP_RMK md_default) (fun p => let v11 := Some (fst p) in let v12 := snd p in 
    chk 199 (Ok (AppendResult_beq v12 NOT_APPENDED)) (
    step 202 (deref v11) (fun v13 => 
    chk 203 (Ok (N.eqb (N.of_nat (List.length (CloudTypesGroup_cloudTypes v13))) 1%N)) (
    chk 204 (let! v14 := deref (List.nth_error (CloudTypesGroup_cloudTypes v13) 0%nat) in Ok (CtType_beq (ctTp v14) Ct_STRATOCUMULUS)) (
    chk 205 (let! v15 := deref (List.nth_error (CloudTypesGroup_cloudTypes v13) 0%nat) in Ok (negb (Distance_isReported (ctHt v15)))) (
    chk 206 (let! v16 := deref (List.nth_error (CloudTypesGroup_cloudTypes v13) 0%nat) in Ok (N.eqb (ctOkt v16) 3%N)) (
    step 208 (let! v17 := deref v1 in CloudTypesGroup_append v17 "SC3" RP_RMK md_default) (fun p => let v18 := Some (fst p) in let v19 := snd p in 
    chk 208 (Ok (AppendResult_beq v19 NOT_APPENDED)) (
    step 210 (let! v20 := deref v18 in CloudTypesGroup_append v20 "AC4CI6" RP_RMK md_default) (fun p => let v21 := Some (fst p) in let v22 := snd p in 
    chk 210 (Ok (AppendResult_beq v22 NOT_APPENDED)) (
    step 212 (let! v23 := deref v21 in CloudTypesGroup_append v23 "3CU012" RP_RMK md_default) (fun p => let v24 := Some (fst p) in let v25 := snd p in 
    chk 212 (Ok (AppendResult_beq v25 NOT_APPENDED)) (
    step 215 (deref v24) (fun v26 => 
    chk 216 (Ok (N.eqb (N.of_nat (List.length (CloudTypesGroup_cloudTypes v26))) 2%N)) (
    chk 217 (let! v27 := deref (List.nth_error (CloudTypesGroup_cloudTypes v26) 0%nat) in Ok (CtType_beq (ctTp v27) Ct_ALTOCUMULUS)) (
    chk 218 (let! v28 := deref (List.nth_error (CloudTypesGroup_cloudTypes v26) 0%nat) in Ok (negb (Distance_isReported (ctHt v28)))) (
    chk 219 (let! v29 := deref (List.nth_error (CloudTypesGroup_cloudTypes v26) 0%nat) in Ok (N.eqb (ctOkt v29) 4%N)) (
    chk 220 (let! v30 := deref (List.nth_error (CloudTypesGroup_cloudTypes v26) 1%nat) in Ok (CtType_beq (ctTp v30) Ct_CIRRUS)) (
    chk 221 (let! v31 := deref (List.nth_error (CloudTypesGroup_cloudTypes v26) 1%nat) in Ok (negb (Distance_isReported (ctHt v31)))) (
    chk 222 (let! v32 := deref (List.nth_error (CloudTypesGroup_cloudTypes v26) 1%nat) in Ok (N.eqb (ctOkt v32) 6%N)) (
    step 224 (let! v33 := deref v3 in CloudTypesGroup_append v33 "SC3" RP_RMK md_default) (fun p => let v34 := Some (fst p) in let v35 := snd p in 
    chk 224 (Ok (AppendResult_beq v35 NOT_APPENDED)) (
    step 226 (let! v36 := deref v34 in CloudTypesGroup_append v36 "AC4CI6" RP_RMK md_default) (fun p => let v37 := Some (fst p) in let v38 := snd p in 
    chk 226 (Ok (AppendResult_beq v38 NOT_APPENDED)) (
    step 229 (deref v37) (fun v39 => 
    chk 230 (Ok (N.eqb (N.of_nat (List.length (CloudTypesGroup_cloudTypes v39))) 1%N)) (
    chk 231 (let! v40 := deref (List.nth_error (CloudTypesGroup_cloudTypes v39) 0%nat) in Ok (CtType_beq (ctTp v40) Ct_CUMULUS)) (
    chk 232 (let! v41 := deref (List.nth_error (CloudTypesGroup_cloudTypes v39) 0%nat) in Ok (Distance_isReported (ctHt v41))) (
    chk 233 (let! v42 := deref (List.nth_error (CloudTypesGroup_cloudTypes v39) 0%nat) in Ok (DistModifier_beq (distModifier (ctHt v42)) DM_NONE)) (
    chk 234 (let! v43 := deref (List.nth_error (CloudTypesGroup_cloudTypes v39) 0%nat) in Ok (has_value (Distance_distance (ctHt v43)))) (
    chk 235 (let! v44 := deref (List.nth_error (CloudTypesGroup_cloudTypes v39) 0%nat) in let! v45 := deref (Distance_distance (ctHt v44)) in Ok (near v45 (dlit (1200) 1) (dlit (1) 2))) (
    chk 236 (let! v46 := deref (List.nth_error (CloudTypesGroup_cloudTypes v39) 0%nat) in Ok (DistUnit_beq (distUnit (ctHt v46)) FEET)) (
    chk 237 (let! v47 := deref (List.nth_error (CloudTypesGroup_cloudTypes v39) 0%nat) in Ok (N.eqb (ctOkt v47) 3%N)) (
    None)))))))))))))))))))))))))))))))))))))))))))).

Definition t_CloudTypesGroup_appendGroupsWithHeight : option N :=
    step 241 ((CloudTypesGroup_parse "1CU020" RP_RMK md_default)) (fun v1 => 
    chk 242 (Ok (has_value v1)) (
    step 244 (let! v2 := deref v1 in CloudTypesGroup_append v2 "4SC040" RP_RMK md_default) (fun p => let v3 := Some (fst p) in let v4 := snd p in 
    chk 244 (Ok (AppendResult_beq v4 APPENDED)) (
    step 245 (let! v5 := deref v3 in CloudTypesGroup_append v5 "5CI230" RP_RMK md_default) (fun p => let v6 := Some (fst p) in let v7 := snd p in 
    chk 245 (Ok (AppendResult_beq v7 APPENDED)) (
    step 247 (deref v6) (fun v8 => 
    chk 248 (Ok (N.eqb (N.of_nat (List.length (CloudTypesGroup_cloudTypes v8))) 3%N)) (
    chk 250 (let! v9 := deref (List.nth_error (CloudTypesGroup_cloudTypes v8) 0%nat) in Ok (CtType_beq (ctTp v9) Ct_CUMULUS)) (
    chk 251 (let! v10 := deref (List.nth_error (CloudTypesGroup_cloudTypes v8) 0%nat) in Ok (Distance_isReported (ctHt v10))) (
    chk 252 (let! v11 := deref (List.nth_error (CloudTypesGroup_cloudTypes v8) 0%nat) in Ok (DistModifier_beq (distModifier (ctHt v11)) DM_NONE)) (
    chk 253 (let! v12 := deref (List.nth_error (CloudTypesGroup_cloudTypes v8) 0%nat) in Ok (has_value (Distance_distance (ctHt v12)))) (
    chk 254 (let! v13 := deref (List.nth_error (CloudTypesGroup_cloudTypes v8) 0%nat) in let! v14 := deref (Distance_distance (ctHt v13)) in Ok (near v14 (dlit (2000) 1) (dlit (1) 2))) (
    chk 255 (let! v15 := deref (List.nth_error (CloudTypesGroup_cloudTypes v8) 0%nat) in Ok (DistUnit_beq (distUnit (ctHt v15)) FEET)) (
    chk 256 (let! v16 := deref (List.nth_error (CloudTypesGroup_cloudTypes v8) 0%nat) in Ok (N.eqb (ctOkt v16) 1%N)) (
    chk 258 (let! v17 := deref (List.nth_error (CloudTypesGroup_cloudTypes v8) 1%nat) in Ok (CtType_beq (ctTp v17) Ct_STRATOCUMULUS)) (
    chk 259 (let! v18 := deref (List.nth_error (CloudTypesGroup_cloudTypes v8) 1%nat) in Ok (Distance_isReported (ctHt v18))) (
    chk 260 (let! v19 := deref (List.nth_error (CloudTypesGroup_cloudTypes v8) 1%nat) in Ok (DistModifier_beq (distModifier (ctHt v19)) DM_NONE)) (
    chk 261 (let! v20 := deref (List.nth_error (CloudTypesGroup_cloudTypes v8) 1%nat) in Ok (has_value (Distance_distance (ctHt v20)))) (
    chk 262 (let! v21 := deref (List.nth_error (CloudTypesGroup_cloudTypes v8) 1%nat) in let! v22 := deref (Distance_distance (ctHt v21)) in Ok (near v22 (dlit (4000) 1) (dlit (1) 2))) (
    chk 263 (let! v23 := deref (List.nth_error (CloudTypesGroup_cloudTypes v8) 1%nat) in Ok (DistUnit_beq (distUnit (ctHt v23)) FEET)) (
    chk 264 (let! v24 := deref (List.nth_error (CloudTypesGroup_cloudTypes v8) 1%nat) in Ok (N.eqb (ctOkt v24) 4%N)) (
    chk 266 (let! v25 := deref (List.nth_error (CloudTypesGroup_cloudTypes v8) 2%nat) in Ok (CtType_beq (ctTp v25) Ct_CIRRUS)) (
    chk 267 (let! v26 := deref (List.nth_error (CloudTypesGroup_cloudTypes v8) 2%nat) in Ok (Distance_isReported (ctHt v26))) (
    chk 268 (let! v27 := deref (List.nth_error (CloudTypesGroup_cloudTypes v8) 2%nat) in Ok (DistModifier_beq (distModifier (ctHt v27)) DM_NONE)) (
    chk 269 (let! v28 := deref (List.nth_error (CloudTypesGroup_cloudTypes v8) 2%nat) in Ok (has_value (Distance_distance (ctHt v28)))) (
    chk 270 (let! v29 := deref (List.nth_error (CloudTypesGroup_cloudTypes v8) 2%nat) in let! v30 := deref (Distance_distance (ctHt v29)) in Ok (near v30 (dlit (23000) 1) (dlit (1) 2))) (
    chk 271 (let! v31 := deref (List.nth_error (CloudTypesGroup_cloudTypes v8) 2%nat) in Ok (DistUnit_beq (distUnit (ctHt v31)) FEET)) (
    chk 272 (let! v32 := deref (List.nth_error (CloudTypesGroup_cloudTypes v8) 2%nat) in Ok (N.eqb (ctOkt v32) 5%N)) (
    None))))))))))))))))))))))))))))).

Definition t_CloudTypesGroup_appendTooManyGroupsWithHeight : option N :=
    step 277 ((CloudTypesGroup_parse "3CU012" RP_RMK md_default)) (fun v1 => 
    chk 278 (Ok (has_value v1)) (
    step 280 (let! v2 := deref v1 in CloudTypesGroup_append v2 "3CU012" RP_RMK md_default) (fun p => let v3 := Some (fst p) in let v4 := snd p in 
    chk 280 (Ok (AppendResult_beq v4 APPENDED)) (
    step 281 (let! v5 := deref v3 in CloudTypesGroup_append v5 "3CU012" RP_RMK md_default) (fun p => let v6 := Some (fst p) in let v7 := snd p in 
    chk 281 (Ok (AppendResult_beq v7 APPENDED)) (
    step 282 (let! v8 := deref v6 in CloudTypesGroup_append v8 "3CU012" RP_RMK md_default) (fun p => let v9 := Some (fst p) in let v10 := snd p in 
    chk 282 (Ok (AppendResult_beq v10 APPENDED)) (
    step 283 (let! v11 := deref v9 in CloudTypesGroup_append v11 "3CU012" RP_RMK md_default) (fun p => let v12 := Some (fst p) in let v13 := snd p in 
    chk 283 (Ok (AppendResult_beq v13 APPENDED)) (
    step 284 (let! v14 := deref v12 in CloudTypesGroup_append v14 "3CU012" RP_RMK md_default) (fun p => let v15 := Some (fst p) in let v16 := snd p in 
    chk 284 (Ok (AppendResult_beq v16 APPENDED)) (
    step 285 (let! v17 := deref v15 in CloudTypesGroup_append v17 "3CU012" RP_RMK md_default) (fun p => let v18 := Some (fst p) in let v19 := snd p in 
    chk 285 (Ok (AppendResult_beq v19 APPENDED)) (
    step 286 (let! v20 := deref v18 in CloudTypesGroup_append v20 "3CU012" RP_RMK md_default) (fun p => let v21 := Some (fst p) in let v22 := snd p in 
    chk 286 (Ok (AppendResult_beq v22 APPENDED)) (
    step 288 (let! v23 := deref v21 in CloudTypesGroup_append v23 "3CU012" RP_RMK md_default) (fun p => let v24 := Some (fst p) in let v25 := snd p in 
    chk 288 (Ok (AppendResult_beq v25 NOT_APPENDED)) (
    step 291 (deref v24) (fun v26 => 
    chk 292 (Ok (N.eqb (N.of_nat (List.length (CloudTypesGroup_cloudTypes v26))) 8%N)) (
    None)))))))))))))))))))).

Definition t_CloudTypesGroup_isValidTrue : option N :=
    step 301 ((CloudTypesGroup_parse "AC4CI6" RP_RMK md_default)) (fun v1 => 
    chk 302 (Ok (has_value v1)) (
    chk 303 (let! v2 := deref v1 in Ok (CloudTypesGroup_isValid v2)) (
    step 305 ((CloudTypesGroup_parse "SC3" RP_RMK md_default)) (fun v3 => 
    chk 306 (Ok (has_value v3)) (
    chk 307 (let! v4 := deref v3 in Ok (CloudTypesGroup_isValid v4)) (
    step 309 ((CloudTypesGroup_parse "BLSN1SC1SC1CI3" RP_RMK md_default)) (fun v5 => 
    chk 310 (Ok (has_value v5)) (
    chk 311 (let! v6 := deref v5 in Ok (CloudTypesGroup_isValid v6)) (
    step 313 ((CloudTypesGroup_parse "8NS035" RP_RMK md_default)) (fun v7 => 
    chk 314 (Ok (has_value v7)) (
    chk 315 (let! v8 := deref v7 in Ok (CloudTypesGroup_isValid v8)) (
    None)))))))))))).

Definition t_CloudTypesGroup_isValidFalse : option N :=
    step 319 ((CloudTypesGroup_parse "AC4CI9" RP_RMK md_default)) (fun v1 => 
    chk 320 (Ok (has_value v1)) (
    chk 321 (let! v2 := deref v1 in Ok (negb (CloudTypesGroup_isValid v2))) (
    step 323 ((CloudTypesGroup_parse "SC0" RP_RMK md_default)) (fun v3 => 
    chk 324 (Ok (has_value v3)) (
    chk 325 (let! v4 := deref v3 in Ok (negb (CloudTypesGroup_isValid v4))) (
    step 327 ((CloudTypesGroup_parse "BLSN9SC1SC1CI3" RP_RMK md_default)) (fun v5 => 
    chk 328 (Ok (has_value v5)) (
    chk 329 (let! v6 := deref v5 in Ok (negb (CloudTypesGroup_isValid v6))) (
    step 331 ((CloudTypesGroup_parse "0NS035" RP_RMK md_default)) (fun v7 => 
    chk 332 (Ok (has_value v7)) (
    chk 333 (let! v8 := deref v7 in Ok (negb (CloudTypesGroup_isValid v8))) (
    step 335 ((CloudTypesGroup_parse "9NS035" RP_RMK md_default)) (fun v9 => 
    chk 336 (Ok (has_value v9)) (
    chk 337 (let! v10 := deref v9 in Ok (negb (CloudTypesGroup_isValid v10))) (
    None))))))))))))))).

Example tests_cloudtypesgroup_pass : failures
  [("CloudTypesGroup_parseFormatWithoutHeightSingleLayer", t_CloudTypesGroup_parseFormatWithoutHeightSingleLayer);
   ("CloudTypesGroup_parseFormatWithoutHeightObscurationAndCloudLayer", t_CloudTypesGroup_parseFormatWithoutHeightObscurationAndCloudLayer);
   ("CloudTypesGroup_parseFormatWithoutHeightThreeLayers", t_CloudTypesGroup_parseFormatWithoutHeightThreeLayers);
   ("CloudTypesGroup_parseFormatWithoutHeightThreeLayersAndObscuration", t_CloudTypesGroup_parseFormatWithoutHeightThreeLayersAndObscuration);
   ("CloudTypesGroup_parseFormatWithoutHeightFiveLayers", t_CloudTypesGroup_parseFormatWithoutHeightFiveLayers);
   ("CloudTypesGroup_parseFormatWithoutHeightTooManyLayers", t_CloudTypesGroup_parseFormatWithoutHeightTooManyLayers);
   ("CloudTypesGroup_parseFormatWithoutHeightWrongReportPart", t_CloudTypesGroup_parseFormatWithoutHeightWrongReportPart);
   ("CloudTypesGroup_parseFormatWithoutHeightWrongFormat", t_CloudTypesGroup_parseFormatWithoutHeightWrongFormat);
   ("CloudTypesGroup_parseFormatWithHeight", t_CloudTypesGroup_parseFormatWithHeight);
   ("CloudTypesGroup_parseFormatWithHeightWrongReportPart", t_CloudTypesGroup_parseFormatWithHeightWrongReportPart);
   ("CloudTypesGroup_parseFormatWithHeightWrongFormat", t_CloudTypesGroup_parseFormatWithHeightWrongFormat);
   ("CloudTypesGroup_appendGroupsWithoutHeight", t_CloudTypesGroup_appendGroupsWithoutHeight);
   ("CloudTypesGroup_appendGroupsWithHeight", t_CloudTypesGroup_appendGroupsWithHeight);
   ("CloudTypesGroup_appendTooManyGroupsWithHeight", t_CloudTypesGroup_appendTooManyGroupsWithHeight);
   ("CloudTypesGroup_isValidTrue", t_CloudTypesGroup_isValidTrue);
   ("CloudTypesGroup_isValidFalse", t_CloudTypesGroup_isValidFalse)] = [].
Proof. vm_compute. reflexivity. Qed.
