(** Generated by tools/gen_tests.py from /repo/test/test_cloudgroup.cpp: the project's own unit tests, run
    against the model. These are tests of the model's fidelity, not properties. *)

From Verif Require Import Prim Regex Float Values Weather Groups1 Groups2 Groups3 Groups4 Parser TestLib.
Local Open Scope string_scope.
Local Open Scope bool_scope.

Definition t_CloudGroup_parseCloudLayerMetar : option N :=
    step 21 ((CloudGroup_parse "SCT040" RP_METAR md_default)) (fun v1 => 
    chk 22 (Ok (has_value v1)) (
    chk 23 (let! v2 := deref v1 in Ok (ClType_beq (cl_tp v2) Cl_CLOUD_LAYER)) (
    chk 24 (let! v3 := deref v1 in Ok (ClAmount_beq (cl_amnt v3) Am_SCATTERED)) (
    chk 25 (let! v4 := deref v1 in Ok (DistUnit_beq (distUnit (CloudGroup_height v4)) FEET)) (
    chk 26 (let! v5 := deref v1 in Ok (Distance_isReported (CloudGroup_height v5))) (
    chk 27 (let! v6 := deref v1 in let! v7 := deref (Distance_distance (CloudGroup_height v6)) in Ok (near v7 (dlit (4000) 1) (dlit (1) 2))) (
    chk 28 (let! v8 := deref v1 in Ok (ClConv_beq (cl_conv v8) Cv_NONE)) (
    chk 29 (let! v9 := deref v1 in Ok (negb (Distance_isReported (CloudGroup_verticalVisibility v9)))) (
    chk 30 (let! v10 := deref v1 in Ok (negb (Distance_isReported (CloudGroup_minHeight v10)))) (
    chk 31 (let! v11 := deref v1 in Ok (negb (Distance_isReported (CloudGroup_maxHeight v11)))) (
    chk 32 (let! v12 := deref v1 in Ok (negb (has_value (cl_rw v12)))) (
    chk 33 (let! v13 := deref v1 in Ok (negb (has_value (cl_dir v13)))) (
    None))))))))))))).

Definition t_CloudGroup_parseCloudLayerTaf : option N :=
    step 37 ((CloudGroup_parse "SCT040" RP_TAF md_default)) (fun v1 => 
    chk 38 (Ok (has_value v1)) (
    chk 39 (let! v2 := deref v1 in Ok (ClType_beq (cl_tp v2) Cl_CLOUD_LAYER)) (
    chk 40 (let! v3 := deref v1 in Ok (ClAmount_beq (cl_amnt v3) Am_SCATTERED)) (
    chk 41 (let! v4 := deref v1 in Ok (Distance_isReported (CloudGroup_height v4))) (
    chk 42 (let! v5 := deref v1 in let! v6 := deref (Distance_distance (CloudGroup_height v5)) in Ok (near v6 (dlit (4000) 1) (dlit (1) 2))) (
    chk 43 (let! v7 := deref v1 in Ok (DistUnit_beq (distUnit (CloudGroup_height v7)) FEET)) (
    chk 44 (let! v8 := deref v1 in Ok (ClConv_beq (cl_conv v8) Cv_NONE)) (
    chk 45 (let! v9 := deref v1 in Ok (negb (Distance_isReported (CloudGroup_verticalVisibility v9)))) (
    chk 46 (let! v10 := deref v1 in Ok (negb (Distance_isReported (CloudGroup_minHeight v10)))) (
    chk 47 (let! v11 := deref v1 in Ok (negb (Distance_isReported (CloudGroup_maxHeight v11)))) (
    chk 48 (let! v12 := deref v1 in Ok (negb (has_value (cl_rw v12)))) (
    chk 49 (let! v13 := deref v1 in Ok (negb (has_value (cl_dir v13)))) (
    None))))))))))))).

Definition t_CloudGroup_parseCloudLayerFew : option N :=
    step 53 ((CloudGroup_parse "FEW117" RP_METAR md_default)) (fun v1 => 
    chk 54 (Ok (has_value v1)) (
    chk 55 (let! v2 := deref v1 in Ok (ClType_beq (cl_tp v2) Cl_CLOUD_LAYER)) (
    chk 56 (let! v3 := deref v1 in Ok (ClAmount_beq (cl_amnt v3) Am_FEW)) (
    chk 57 (let! v4 := deref v1 in Ok (Distance_isReported (CloudGroup_height v4))) (
    chk 58 (let! v5 := deref v1 in let! v6 := deref (Distance_distance (CloudGroup_height v5)) in Ok (near v6 (dlit (11700) 1) (dlit (1) 2))) (
    chk 59 (let! v7 := deref v1 in Ok (DistUnit_beq (distUnit (CloudGroup_height v7)) FEET)) (
    chk 60 (let! v8 := deref v1 in Ok (ClConv_beq (cl_conv v8) Cv_NONE)) (
    chk 61 (let! v9 := deref v1 in Ok (negb (Distance_isReported (CloudGroup_verticalVisibility v9)))) (
    chk 62 (let! v10 := deref v1 in Ok (negb (Distance_isReported (CloudGroup_minHeight v10)))) (
    chk 63 (let! v11 := deref v1 in Ok (negb (Distance_isReported (CloudGroup_maxHeight v11)))) (
    chk 64 (let! v12 := deref v1 in Ok (negb (has_value (cl_rw v12)))) (
    chk 65 (let! v13 := deref v1 in Ok (negb (has_value (cl_dir v13)))) (
    None))))))))))))).

Definition t_CloudGroup_parseCloudLayerScattered : option N :=
    step 69 ((CloudGroup_parse "SCT370" RP_METAR md_default)) (fun v1 => 
    chk 70 (Ok (has_value v1)) (
    chk 71 (let! v2 := deref v1 in Ok (ClType_beq (cl_tp v2) Cl_CLOUD_LAYER)) (
    chk 72 (let! v3 := deref v1 in Ok (ClAmount_beq (cl_amnt v3) Am_SCATTERED)) (
    chk 73 (let! v4 := deref v1 in Ok (Distance_isReported (CloudGroup_height v4))) (
    chk 74 (let! v5 := deref v1 in let! v6 := deref (Distance_distance (CloudGroup_height v5)) in Ok (near v6 (dlit (37000) 1) (dlit (1) 2))) (
    chk 75 (let! v7 := deref v1 in Ok (DistUnit_beq (distUnit (CloudGroup_height v7)) FEET)) (
    chk 76 (let! v8 := deref v1 in Ok (ClConv_beq (cl_conv v8) Cv_NONE)) (
    chk 77 (let! v9 := deref v1 in Ok (negb (Distance_isReported (CloudGroup_verticalVisibility v9)))) (
    chk 78 (let! v10 := deref v1 in Ok (negb (Distance_isReported (CloudGroup_minHeight v10)))) (
    chk 79 (let! v11 := deref v1 in Ok (negb (Distance_isReported (CloudGroup_maxHeight v11)))) (
    chk 80 (let! v12 := deref v1 in Ok (negb (has_value (cl_rw v12)))) (
    chk 81 (let! v13 := deref v1 in Ok (negb (has_value (cl_dir v13)))) (
    None))))))))))))).

Definition t_CloudGroup_parseCloudLayerBroken : option N :=
    step 85 ((CloudGroup_parse "BKN026" RP_METAR md_default)) (fun v1 => 
    chk 86 (Ok (has_value v1)) (
    chk 87 (let! v2 := deref v1 in Ok (ClType_beq (cl_tp v2) Cl_CLOUD_LAYER)) (
    chk 88 (let! v3 := deref v1 in Ok (ClAmount_beq (cl_amnt v3) Am_BROKEN)) (
    chk 89 (let! v4 := deref v1 in Ok (Distance_isReported (CloudGroup_height v4))) (
    chk 90 (let! v5 := deref v1 in let! v6 := deref (Distance_distance (CloudGroup_height v5)) in Ok (near v6 (dlit (2600) 1) (dlit (1) 2))) (
    chk 91 (let! v7 := deref v1 in Ok (DistUnit_beq (distUnit (CloudGroup_height v7)) FEET)) (
    chk 92 (let! v8 := deref v1 in Ok (ClConv_beq (cl_conv v8) Cv_NONE)) (
    chk 93 (let! v9 := deref v1 in Ok (negb (Distance_isReported (CloudGroup_verticalVisibility v9)))) (
    chk 94 (let! v10 := deref v1 in Ok (negb (Distance_isReported (CloudGroup_minHeight v10)))) (
    chk 95 (let! v11 := deref v1 in Ok (negb (Distance_isReported (CloudGroup_maxHeight v11)))) (
    chk 96 (let! v12 := deref v1 in Ok (negb (has_value (cl_rw v12)))) (
    chk 97 (let! v13 := deref v1 in Ok (negb (has_value (cl_dir v13)))) (
    None))))))))))))).

Definition t_CloudGroup_parseCloudLayerOvercast : option N :=
    step 101 ((CloudGroup_parse "OVC002" RP_METAR md_default)) (fun v1 => 
    chk 102 (Ok (has_value v1)) (
    chk 103 (let! v2 := deref v1 in Ok (ClType_beq (cl_tp v2) Cl_CLOUD_LAYER)) (
    chk 104 (let! v3 := deref v1 in Ok (ClAmount_beq (cl_amnt v3) Am_OVERCAST)) (
    chk 105 (let! v4 := deref v1 in Ok (Distance_isReported (CloudGroup_height v4))) (
    chk 106 (let! v5 := deref v1 in let! v6 := deref (Distance_distance (CloudGroup_height v5)) in Ok (near v6 (dlit (200) 1) (dlit (1) 2))) (
    chk 107 (let! v7 := deref v1 in Ok (DistUnit_beq (distUnit (CloudGroup_height v7)) FEET)) (
    chk 108 (let! v8 := deref v1 in Ok (ClConv_beq (cl_conv v8) Cv_NONE)) (
    chk 109 (let! v9 := deref v1 in Ok (negb (Distance_isReported (CloudGroup_verticalVisibility v9)))) (
    chk 110 (let! v10 := deref v1 in Ok (negb (Distance_isReported (CloudGroup_minHeight v10)))) (
    chk 111 (let! v11 := deref v1 in Ok (negb (Distance_isReported (CloudGroup_maxHeight v11)))) (
    chk 112 (let! v12 := deref v1 in Ok (negb (has_value (cl_rw v12)))) (
    chk 113 (let! v13 := deref v1 in Ok (negb (has_value (cl_dir v13)))) (
    None))))))))))))).

Definition t_CloudGroup_parseCloudLayerToweringCumulus : option N :=
    step 117 ((CloudGroup_parse "SCT025TCU" RP_METAR md_default)) (fun v1 => 
    chk 118 (Ok (has_value v1)) (
    chk 119 (let! v2 := deref v1 in Ok (ClType_beq (cl_tp v2) Cl_CLOUD_LAYER)) (
    chk 120 (let! v3 := deref v1 in Ok (ClAmount_beq (cl_amnt v3) Am_SCATTERED)) (
    chk 121 (let! v4 := deref v1 in Ok (Distance_isReported (CloudGroup_height v4))) (
    chk 122 (let! v5 := deref v1 in let! v6 := deref (Distance_distance (CloudGroup_height v5)) in Ok (near v6 (dlit (2500) 1) (dlit (1) 2))) (
    chk 123 (let! v7 := deref v1 in Ok (DistUnit_beq (distUnit (CloudGroup_height v7)) FEET)) (
    chk 124 (let! v8 := deref v1 in Ok (ClConv_beq (cl_conv v8) Cv_TOWERING_CUMULUS)) (
    chk 125 (let! v9 := deref v1 in Ok (negb (Distance_isReported (CloudGroup_verticalVisibility v9)))) (
    chk 126 (let! v10 := deref v1 in Ok (negb (Distance_isReported (CloudGroup_minHeight v10)))) (
    chk 127 (let! v11 := deref v1 in Ok (negb (Distance_isReported (CloudGroup_maxHeight v11)))) (
    chk 128 (let! v12 := deref v1 in Ok (negb (has_value (cl_rw v12)))) (
    chk 129 (let! v13 := deref v1 in Ok (negb (has_value (cl_dir v13)))) (
    None))))))))))))).

Definition t_CloudGroup_parseCloudLayerCumulonimbus : option N :=
    step 133 ((CloudGroup_parse "BKN012CB" RP_METAR md_default)) (fun v1 => 
    chk 134 (Ok (has_value v1)) (
    chk 135 (let! v2 := deref v1 in Ok (ClType_beq (cl_tp v2) Cl_CLOUD_LAYER)) (
    chk 136 (let! v3 := deref v1 in Ok (ClAmount_beq (cl_amnt v3) Am_BROKEN)) (
    chk 137 (let! v4 := deref v1 in Ok (Distance_isReported (CloudGroup_height v4))) (
    chk 138 (let! v5 := deref v1 in let! v6 := deref (Distance_distance (CloudGroup_height v5)) in Ok (near v6 (dlit (1200) 1) (dlit (1) 2))) (
    chk 139 (let! v7 := deref v1 in Ok (DistUnit_beq (distUnit (CloudGroup_height v7)) FEET)) (
    chk 140 (let! v8 := deref v1 in Ok (ClConv_beq (cl_conv v8) Cv_CUMULONIMBUS)) (
    chk 141 (let! v9 := deref v1 in Ok (negb (Distance_isReported (CloudGroup_verticalVisibility v9)))) (
    chk 142 (let! v10 := deref v1 in Ok (negb (Distance_isReported (CloudGroup_minHeight v10)))) (
    chk 143 (let! v11 := deref v1 in Ok (negb (Distance_isReported (CloudGroup_maxHeight v11)))) (
    chk 144 (let! v12 := deref v1 in Ok (negb (has_value (cl_rw v12)))) (
    chk 145 (let! v13 := deref v1 in Ok (negb (has_value (cl_dir v13)))) (
    None))))))))))))).

Definition t_CloudGroup_parseCloudLayerConvectiveTypeNotReported : option N :=
    step 149 ((CloudGroup_parse "SCT016///" RP_METAR md_default)) (fun v1 => 
    chk 150 (Ok (has_value v1)) (
    chk 151 (let! v2 := deref v1 in Ok (ClType_beq (cl_tp v2) Cl_CLOUD_LAYER)) (
    chk 152 (let! v3 := deref v1 in Ok (ClAmount_beq (cl_amnt v3) Am_SCATTERED)) (
    chk 153 (let! v4 := deref v1 in Ok (Distance_isReported (CloudGroup_height v4))) (
    chk 154 (let! v5 := deref v1 in let! v6 := deref (Distance_distance (CloudGroup_height v5)) in Ok (near v6 (dlit (1600) 1) (dlit (1) 2))) (
    chk 155 (let! v7 := deref v1 in Ok (DistUnit_beq (distUnit (CloudGroup_height v7)) FEET)) (
    chk 156 (let! v8 := deref v1 in Ok (ClConv_beq (cl_conv v8) Cv_NOT_REPORTED)) (
    chk 157 (let! v9 := deref v1 in Ok (negb (Distance_isReported (CloudGroup_verticalVisibility v9)))) (
    chk 158 (let! v10 := deref v1 in Ok (negb (Distance_isReported (CloudGroup_minHeight v10)))) (
    chk 159 (let! v11 := deref v1 in Ok (negb (Distance_isReported (CloudGroup_maxHeight v11)))) (
    chk 160 (let! v12 := deref v1 in Ok (negb (has_value (cl_rw v12)))) (
    chk 161 (let! v13 := deref v1 in Ok (negb (has_value (cl_dir v13)))) (
    None))))))))))))).

Definition t_CloudGroup_parseCloudLayerAmountAndTypeNotReported : option N :=
    step 165 ((CloudGroup_parse "///074///" RP_METAR md_default)) (fun v1 => 
    chk 166 (Ok (has_value v1)) (
    chk 167 (let! v2 := deref v1 in Ok (ClType_beq (cl_tp v2) Cl_CLOUD_LAYER)) (
    chk 168 (let! v3 := deref v1 in Ok (ClAmount_beq (cl_amnt v3) Am_NOT_REPORTED)) (
    chk 169 (let! v4 := deref v1 in Ok (Distance_isReported (CloudGroup_height v4))) (
    chk 170 (let! v5 := deref v1 in let! v6 := deref (Distance_distance (CloudGroup_height v5)) in Ok (near v6 (dlit (7400) 1) (dlit (1) 2))) (
    chk 171 (let! v7 := deref v1 in Ok (DistUnit_beq (distUnit (CloudGroup_height v7)) FEET)) (
    chk 172 (let! v8 := deref v1 in Ok (ClConv_beq (cl_conv v8) Cv_NOT_REPORTED)) (
    chk 173 (let! v9 := deref v1 in Ok (negb (Distance_isReported (CloudGroup_verticalVisibility v9)))) (
    chk 174 (let! v10 := deref v1 in Ok (negb (Distance_isReported (CloudGroup_minHeight v10)))) (
    chk 175 (let! v11 := deref v1 in Ok (negb (Distance_isReported (CloudGroup_maxHeight v11)))) (
    chk 176 (let! v12 := deref v1 in Ok (negb (has_value (cl_rw v12)))) (
    chk 177 (let! v13 := deref v1 in Ok (negb (has_value (cl_dir v13)))) (
    None))))))))))))).

Definition t_CloudGroup_parseCloudLayerAmountAndHeightNotReported : option N :=
    step 181 ((CloudGroup_parse "//////TCU" RP_METAR md_default)) (fun v1 => 
    chk 182 (Ok (has_value v1)) (
    chk 183 (let! v2 := deref v1 in Ok (ClType_beq (cl_tp v2) Cl_CLOUD_LAYER)) (
    chk 184 (let! v3 := deref v1 in Ok (ClAmount_beq (cl_amnt v3) Am_NOT_REPORTED)) (
    chk 185 (let! v4 := deref v1 in Ok (negb (Distance_isReported (CloudGroup_height v4)))) (
    chk 186 (let! v5 := deref v1 in Ok (ClConv_beq (cl_conv v5) Cv_TOWERING_CUMULUS)) (
    chk 187 (let! v6 := deref v1 in Ok (negb (Distance_isReported (CloudGroup_verticalVisibility v6)))) (
    chk 188 (let! v7 := deref v1 in Ok (negb (Distance_isReported (CloudGroup_minHeight v7)))) (
    chk 189 (let! v8 := deref v1 in Ok (negb (Distance_isReported (CloudGroup_maxHeight v8)))) (
    chk 190 (let! v9 := deref v1 in Ok (negb (has_value (cl_rw v9)))) (
    chk 191 (let! v10 := deref v1 in Ok (negb (has_value (cl_dir v10)))) (
    None))))))))))).

Definition t_CloudGroup_parseCloudLayerNotReported : option N :=
    step 195 ((CloudGroup_parse "/////////" RP_METAR md_default)) (fun v1 => 
    chk 196 (Ok (has_value v1)) (
    chk 197 (let! v2 := deref v1 in Ok (ClType_beq (cl_tp v2) Cl_CLOUD_LAYER)) (
    chk 198 (let! v3 := deref v1 in Ok (ClAmount_beq (cl_amnt v3) Am_NOT_REPORTED)) (
    chk 199 (let! v4 := deref v1 in Ok (negb (Distance_isReported (CloudGroup_height v4)))) (
    chk 200 (let! v5 := deref v1 in Ok (ClConv_beq (cl_conv v5) Cv_NOT_REPORTED)) (
    chk 201 (let! v6 := deref v1 in Ok (negb (Distance_isReported (CloudGroup_verticalVisibility v6)))) (
    chk 202 (let! v7 := deref v1 in Ok (negb (Distance_isReported (CloudGroup_minHeight v7)))) (
    chk 203 (let! v8 := deref v1 in Ok (negb (Distance_isReported (CloudGroup_maxHeight v8)))) (
    chk 204 (let! v9 := deref v1 in Ok (negb (has_value (cl_rw v9)))) (
    chk 205 (let! v10 := deref v1 in Ok (negb (has_value (cl_dir v10)))) (
    None))))))))))).

Definition t_CloudGroup_parseCloudLayerWrongReportPart : option N :=
    chk 209 (let! v1 := (CloudGroup_parse "SCT040" RP_UNKNOWN md_default) in Ok (negb (has_value v1))) (
    chk 210 (let! v2 := (CloudGroup_parse "SCT040" RP_HEADER md_default) in Ok (negb (has_value v2))) (
    None)).

Definition t_CloudGroup_parseCloudLayerWrongFormat : option N :=
    chk 214 (let! v1 := (CloudGroup_parse "AAA040" RP_METAR md_default) in Ok (negb (has_value v1))) (
    chk 215 (let! v2 := (CloudGroup_parse "BCC040" RP_METAR md_default) in Ok (negb (has_value v2))) (
    chk 216 (let! v3 := (CloudGroup_parse "SCT" RP_METAR md_default) in Ok (negb (has_value v3))) (
    chk 217 (let! v4 := (CloudGroup_parse "SCT0040" RP_METAR md_default) in Ok (negb (has_value v4))) (
    chk 218 (let! v5 := (CloudGroup_parse "SCT40" RP_METAR md_default) in Ok (negb (has_value v5))) (
    chk 219 (let! v6 := (CloudGroup_parse "SCC040" RP_METAR md_default) in Ok (negb (has_value v6))) (
    chk 220 (let! v7 := (CloudGroup_parse "SCT04A" RP_METAR md_default) in Ok (negb (has_value v7))) (
    chk 221 (let! v8 := (CloudGroup_parse "SCT040TCB" RP_METAR md_default) in Ok (negb (has_value v8))) (
    chk 222 (let! v9 := (CloudGroup_parse "SCT040CCU" RP_METAR md_default) in Ok (negb (has_value v9))) (
    chk 223 (let! v10 := (CloudGroup_parse "SCT040////" RP_METAR md_default) in Ok (negb (has_value v10))) (
    chk 224 (let! v11 := (CloudGroup_parse "SCT040//" RP_METAR md_default) in Ok (negb (has_value v11))) (
    chk 225 (let! v12 := (CloudGroup_parse "////040" RP_METAR md_default) in Ok (negb (has_value v12))) (
    chk 226 (let! v13 := (CloudGroup_parse "//040" RP_METAR md_default) in Ok (negb (has_value v13))) (
    chk 227 (let! v14 := (CloudGroup_parse "SCT////" RP_METAR md_default) in Ok (negb (has_value v14))) (
    chk 228 (let! v15 := (CloudGroup_parse "SCT//" RP_METAR md_default) in Ok (negb (has_value v15))) (
    None))))))))))))))).

Definition t_CloudGroup_appendNonVariableCloudLayer : option N :=
    step 245 ((CloudGroup_parse "CLR" RP_METAR md_default)) (fun v1 => 
    chk 246 (Ok (has_value v1)) (
    step 248 ((CloudGroup_parse "SKC" RP_METAR md_default)) (fun v2 => 
    chk 249 (Ok (has_value v2)) (
    step 251 ((CloudGroup_parse "NCD" RP_METAR md_default)) (fun v3 => 
    chk 252 (Ok (has_value v3)) (
    step 254 ((CloudGroup_parse "NSC" RP_METAR md_default)) (fun v4 => 
    chk 255 (Ok (has_value v4)) (
    step 257 ((CloudGroup_parse "FEW040" RP_METAR md_default)) (fun v5 => 
    chk 258 (Ok (has_value v5)) (
    step 260 ((CloudGroup_parse "VV004" RP_METAR md_default)) (fun v6 => 
    chk 261 (Ok (has_value v6)) (
    step 263 ((CloudGroup_parse "SCT020TCU" RP_METAR md_default)) (fun v7 => 
    chk 264 (Ok (has_value v7)) (
    step 266 ((CloudGroup_parse "SCT020CB" RP_METAR md_default)) (fun v8 => 
    chk 267 (Ok (has_value v8)) (
    step 269 (let! v9 := deref v1 in CloudGroup_append v9 "CLR" RP_METAR md_default) (fun p => let v10 := Some (fst p) in let v11 := snd p in 
    chk 269 (Ok (AppendResult_beq v11 NOT_APPENDED)) (
    step 270 (let! v12 := deref v10 in CloudGroup_append v12 "SKC" RP_METAR md_default) (fun p => let v13 := Some (fst p) in let v14 := snd p in 
    chk 270 (Ok (AppendResult_beq v14 NOT_APPENDED)) (
    step 271 (let! v15 := deref v13 in CloudGroup_append v15 "NCD" RP_METAR md_default) (fun p => let v16 := Some (fst p) in let v17 := snd p in 
    chk 271 (Ok (AppendResult_beq v17 NOT_APPENDED)) (
    step 272 (let! v18 := deref v16 in CloudGroup_append v18 "NSC" RP_METAR md_default) (fun p => let v19 := Some (fst p) in let v20 := snd p in 
    chk 272 (Ok (AppendResult_beq v20 NOT_APPENDED)) (
    step 273 (let! v21 := deref v19 in CloudGroup_append v21 "FEW040" RP_METAR md_default) (fun p => let v22 := Some (fst p) in let v23 := snd p in 
    chk 273 (Ok (AppendResult_beq v23 NOT_APPENDED)) (
    step 274 (let! v24 := deref v22 in CloudGroup_append v24 "VV004" RP_METAR md_default) (fun p => let v25 := Some (fst p) in let v26 := snd p in 
    chk 274 (Ok (AppendResult_beq v26 NOT_APPENDED)) (
    step 275 (let! v27 := deref v25 in CloudGroup_append v27 "SCT020TCU" RP_METAR md_default) (fun p => let v28 := Some (fst p) in let v29 := snd p in 
    chk 275 (Ok (AppendResult_beq v29 NOT_APPENDED)) (
    step 276 (let! v30 := deref v28 in CloudGroup_append v30 "SCT020CB" RP_METAR md_default) (fun p => let v31 := Some (fst p) in let v32 := snd p in 
    chk 276 (Ok (AppendResult_beq v32 NOT_APPENDED)) (
    step 277 (let! v33 := deref v31 in CloudGroup_append v33 "RMK" RP_METAR md_default) (fun p => let v34 := Some (fst p) in let v35 := snd p in 
    chk 277 (Ok (AppendResult_beq v35 NOT_APPENDED)) (
    step 278 (let! v36 := deref v34 in CloudGroup_append v36 "TEST" RP_METAR md_default) (fun p => let v37 := Some (fst p) in let v38 := snd p in 
    chk 278 (Ok (AppendResult_beq v38 NOT_APPENDED)) (
    step 280 (let! v39 := deref v2 in CloudGroup_append v39 "CLR" RP_METAR md_default) (fun p => let v40 := Some (fst p) in let v41 := snd p in 
    chk 280 (Ok (AppendResult_beq v41 NOT_APPENDED)) (
    step 281 (let! v42 := deref v40 in CloudGroup_append v42 "SKC" RP_METAR md_default) (fun p => let v43 := Some (fst p) in let v44 := snd p in 
    chk 281 (Ok (AppendResult_beq v44 NOT_APPENDED)) (
    step 282 (let! v45 := deref v43 in CloudGroup_append v45 "NCD" RP_METAR md_default) (fun p => let v46 := Some (fst p) in let v47 := snd p in 
    chk 282 (Ok (AppendResult_beq v47 NOT_APPENDED)) (
    step 283 (let! v48 := deref v46 in CloudGroup_append v48 "NSC" RP_METAR md_default) (fun p => let v49 := Some (fst p) in let v50 := snd p in 
    chk 283 (Ok (AppendResult_beq v50 NOT_APPENDED)) (
    step 284 (let! v51 := deref v49 in CloudGroup_append v51 "FEW040" RP_METAR md_default) (fun p => let v52 := Some (fst p) in let v53 := snd p in 
    chk 284 (Ok (AppendResult_beq v53 NOT_APPENDED)) (
    step 285 (let! v54 := deref v52 in CloudGroup_append v54 "VV004" RP_METAR md_default) (fun p => let v55 := Some (fst p) in let v56 := snd p in 
    chk 285 (Ok (AppendResult_beq v56 NOT_APPENDED)) (
    step 286 (let! v57 := deref v55 in CloudGroup_append v57 "SCT020TCU" RP_METAR md_default) (fun p => let v58 := Some (fst p) in let v59 := snd p in 
    chk 286 (Ok (AppendResult_beq v59 NOT_APPENDED)) (
    step 287 (let! v60 := deref v58 in CloudGroup_append v60 "SCT020CB" RP_METAR md_default) (fun p => let v61 := Some (fst p) in let v62 := snd p in 
    chk 287 (Ok (AppendResult_beq v62 NOT_APPENDED)) (
    step 288 (let! v63 := deref v61 in CloudGroup_append v63 "RMK" RP_METAR md_default) (fun p => let v64 := Some (fst p) in let v65 := snd p in 
    chk 288 (Ok (AppendResult_beq v65 NOT_APPENDED)) (
    step 289 (let! v66 := deref v64 in CloudGroup_append v66 "TEST" RP_METAR md_default) (fun p => let v67 := Some (fst p) in let v68 := snd p in 
    chk 289 (Ok (AppendResult_beq v68 NOT_APPENDED)) (
    step 291 (let! v69 := deref v3 in CloudGroup_append v69 "CLR" RP_METAR md_default) (fun p => let v70 := Some (fst p) in let v71 := snd p in 
    chk 291 (Ok (AppendResult_beq v71 NOT_APPENDED)) (
    step 292 (let! v72 := deref v70 in CloudGroup_append v72 "SKC" RP_METAR md_default) (fun p => let v73 := Some (fst p) in let v74 := snd p in 
    chk 292 (Ok (AppendResult_beq v74 NOT_APPENDED)) (
    step 293 (let! v75 := deref v73 in CloudGroup_append v75 "NCD" RP_METAR md_default) (fun p => let v76 := Some (fst p) in let v77 := snd p in 
    chk 293 (Ok (AppendResult_beq v77 NOT_APPENDED)) (
    step 294 (let! v78 := deref v76 in CloudGroup_append v78 "NSC" RP_METAR md_default) (fun p => let v79 := Some (fst p) in let v80 := snd p in 
    chk 294 (Ok (AppendResult_beq v80 NOT_APPENDED)) (
    step 295 (let! v81 := deref v79 in CloudGroup_append v81 "FEW040" RP_METAR md_default) (fun p => let v82 := Some (fst p) in let v83 := snd p in 
    chk 295 (Ok (AppendResult_beq v83 NOT_APPENDED)) (
    step 296 (let! v84 := deref v82 in CloudGroup_append v84 "VV004" RP_METAR md_default) (fun p => let v85 := Some (fst p) in let v86 := snd p in 
    chk 296 (Ok (AppendResult_beq v86 NOT_APPENDED)) (
    step 297 (let! v87 := deref v85 in CloudGroup_append v87 "SCT020TCU" RP_METAR md_default) (fun p => let v88 := Some (fst p) in let v89 := snd p in 
    chk 297 (Ok (AppendResult_beq v89 NOT_APPENDED)) (
    step 298 (let! v90 := deref v88 in CloudGroup_append v90 "SCT020CB" RP_METAR md_default) (fun p => let v91 := Some (fst p) in let v92 := snd p in 
    chk 298 (Ok (AppendResult_beq v92 NOT_APPENDED)) (
    step 299 (let! v93 := deref v91 in CloudGroup_append v93 "RMK" RP_METAR md_default) (fun p => let v94 := Some (fst p) in let v95 := snd p in 
    chk 299 (Ok (AppendResult_beq v95 NOT_APPENDED)) (
    step 300 (let! v96 := deref v94 in CloudGroup_append v96 "TEST" RP_METAR md_default) (fun p => let v97 := Some (fst p) in let v98 := snd p in 
    chk 300 (Ok (AppendResult_beq v98 NOT_APPENDED)) (
    step 302 (let! v99 := deref v4 in CloudGroup_append v99 "CLR" RP_METAR md_default) (fun p => let v100 := Some (fst p) in let v101 := snd p in 
    chk 302 (Ok (AppendResult_beq v101 NOT_APPENDED)) (
    step 303 (let! v102 := deref v100 in CloudGroup_append v102 "SKC" RP_METAR md_default) (fun p => let v103 := Some (fst p) in let v104 := snd p in 
    chk 303 (Ok (AppendResult_beq v104 NOT_APPENDED)) (
    step 304 (let! v105 := deref v103 in CloudGroup_append v105 "NCD" RP_METAR md_default) (fun p => let v106 := Some (fst p) in let v107 := snd p in 
    chk 304 (Ok (AppendResult_beq v107 NOT_APPENDED)) (
    step 305 (let! v108 := deref v106 in CloudGroup_append v108 "NSC" RP_METAR md_default) (fun p => let v109 := Some (fst p) in let v110 := snd p in 
    chk 305 (Ok (AppendResult_beq v110 NOT_APPENDED)) (
    step 306 (let! v111 := deref v109 in CloudGroup_append v111 "FEW040" RP_METAR md_default) (fun p => let v112 := Some (fst p) in let v113 := snd p in 
    chk 306 (Ok (AppendResult_beq v113 NOT_APPENDED)) (
    step 307 (let! v114 := deref v112 in CloudGroup_append v114 "VV004" RP_METAR md_default) (fun p => let v115 := Some (fst p) in let v116 := snd p in 
    chk 307 (Ok (AppendResult_beq v116 NOT_APPENDED)) (
    step 308 (let! v117 := deref v115 in CloudGroup_append v117 "SCT020TCU" RP_METAR md_default) (fun p => let v118 := Some (fst p) in let v119 := snd p in 
    chk 308 (Ok (AppendResult_beq v119 NOT_APPENDED)) (
    step 309 (let! v120 := deref v118 in CloudGroup_append v120 "SCT020CB" RP_METAR md_default) (fun p => let v121 := Some (fst p) in let v122 := snd p in 
    chk 309 (Ok (AppendResult_beq v122 NOT_APPENDED)) (
    step 310 (let! v123 := deref v121 in CloudGroup_append v123 "RMK" RP_METAR md_default) (fun p => let v124 := Some (fst p) in let v125 := snd p in 
    chk 310 (Ok (AppendResult_beq v125 NOT_APPENDED)) (
    step 311 (let! v126 := deref v124 in CloudGroup_append v126 "TEST" RP_METAR md_default) (fun p => let v127 := Some (fst p) in let v128 := snd p in 
    chk 311 (Ok (AppendResult_beq v128 NOT_APPENDED)) (
    step 313 (let! v129 := deref v5 in CloudGroup_append v129 "CLR" RP_METAR md_default) (fun p => let v130 := Some (fst p) in let v131 := snd p in 
    chk 313 (Ok (AppendResult_beq v131 NOT_APPENDED)) (
    step 314 (let! v132 := deref v130 in CloudGroup_append v132 "SKC" RP_METAR md_default) (fun p => let v133 := Some (fst p) in let v134 := snd p in 
    chk 314 (Ok (AppendResult_beq v134 NOT_APPENDED)) (
    step 315 (let! v135 := deref v133 in CloudGroup_append v135 "NCD" RP_METAR md_default) (fun p => let v136 := Some (fst p) in let v137 := snd p in 
    chk 315 (Ok (AppendResult_beq v137 NOT_APPENDED)) (
    step 316 (let! v138 := deref v136 in CloudGroup_append v138 "NSC" RP_METAR md_default) (fun p => let v139 := Some (fst p) in let v140 := snd p in 
    chk 316 (Ok (AppendResult_beq v140 NOT_APPENDED)) (
    step 317 (let! v141 := deref v139 in CloudGroup_append v141 "FEW040" RP_METAR md_default) (fun p => let v142 := Some (fst p) in let v143 := snd p in 
    chk 317 (Ok (AppendResult_beq v143 NOT_APPENDED)) (
    step 318 (let! v144 := deref v142 in CloudGroup_append v144 "VV004" RP_METAR md_default) (fun p => let v145 := Some (fst p) in let v146 := snd p in 
    chk 318 (Ok (AppendResult_beq v146 NOT_APPENDED)) (
    step 319 (let! v147 := deref v145 in CloudGroup_append v147 "SCT020TCU" RP_METAR md_default) (fun p => let v148 := Some (fst p) in let v149 := snd p in 
    chk 319 (Ok (AppendResult_beq v149 NOT_APPENDED)) (
    step 320 (let! v150 := deref v148 in CloudGroup_append v150 "SCT020CB" RP_METAR md_default) (fun p => let v151 := Some (fst p) in let v152 := snd p in 
    chk 320 (Ok (AppendResult_beq v152 NOT_APPENDED)) (
    step 321 (let! v153 := deref v151 in CloudGroup_append v153 "RMK" RP_METAR md_default) (fun p => let v154 := Some (fst p) in let v155 := snd p in 
    chk 321 (Ok (AppendResult_beq v155 NOT_APPENDED)) (
    step 322 (let! v156 := deref v154 in CloudGroup_append v156 "TEST" RP_METAR md_default) (fun p => let v157 := Some (fst p) in let v158 := snd p in 
    chk 322 (Ok (AppendResult_beq v158 NOT_APPENDED)) (
    step 324 (let! v159 := deref v6 in CloudGroup_append v159 "CLR" RP_METAR md_default) (fun p => let v160 := Some (fst p) in let v161 := snd p in 
    chk 324 (Ok (AppendResult_beq v161 NOT_APPENDED)) (
    step 325 (let! v162 := deref v160 in CloudGroup_append v162 "SKC" RP_METAR md_default) (fun p => let v163 := Some (fst p) in let v164 := snd p in 
    chk 325 (Ok (AppendResult_beq v164 NOT_APPENDED)) (
    step 326 (let! v165 := deref v163 in CloudGroup_append v165 "NCD" RP_METAR md_default) (fun p => let v166 := Some (fst p) in let v167 := snd p in 
    chk 326 (Ok (AppendResult_beq v167 NOT_APPENDED)) (
    step 327 (let! v168 := deref v166 in CloudGroup_append v168 "NSC" RP_METAR md_default) (fun p => let v169 := Some (fst p) in let v170 := snd p in 
    chk 327 (Ok (AppendResult_beq v170 NOT_APPENDED)) (
    step 328 (let! v171 := deref v169 in CloudGroup_append v171 "FEW040" RP_METAR md_default) (fun p => let v172 := Some (fst p) in let v173 := snd p in 
    chk 328 (Ok (AppendResult_beq v173 NOT_APPENDED)) (
    step 329 (let! v174 := deref v172 in CloudGroup_append v174 "VV004" RP_METAR md_default) (fun p => let v175 := Some (fst p) in let v176 := snd p in 
    chk 329 (Ok (AppendResult_beq v176 NOT_APPENDED)) (
    step 330 (let! v177 := deref v175 in CloudGroup_append v177 "SCT020TCU" RP_METAR md_default) (fun p => let v178 := Some (fst p) in let v179 := snd p in 
    chk 330 (Ok (AppendResult_beq v179 NOT_APPENDED)) (
    step 331 (let! v180 := deref v178 in CloudGroup_append v180 "SCT020CB" RP_METAR md_default) (fun p => let v181 := Some (fst p) in let v182 := snd p in 
    chk 331 (Ok (AppendResult_beq v182 NOT_APPENDED)) (
    step 332 (let! v183 := deref v181 in CloudGroup_append v183 "RMK" RP_METAR md_default) (fun p => let v184 := Some (fst p) in let v185 := snd p in 
    chk 332 (Ok (AppendResult_beq v185 NOT_APPENDED)) (
    step 333 (let! v186 := deref v184 in CloudGroup_append v186 "TEST" RP_METAR md_default) (fun p => let v187 := Some (fst p) in let v188 := snd p in 
    chk 333 (Ok (AppendResult_beq v188 NOT_APPENDED)) (
    step 335 (let! v189 := deref v7 in CloudGroup_append v189 "CLR" RP_METAR md_default) (fun p => let v190 := Some (fst p) in let v191 := snd p in 
    chk 335 (Ok (AppendResult_beq v191 NOT_APPENDED)) (
    step 336 (let! v192 := deref v190 in CloudGroup_append v192 "SKC" RP_METAR md_default) (fun p => let v193 := Some (fst p) in let v194 := snd p in 
    chk 336 (Ok (AppendResult_beq v194 NOT_APPENDED)) (
    step 337 (let! v195 := deref v193 in CloudGroup_append v195 "NCD" RP_METAR md_default) (fun p => let v196 := Some (fst p) in let v197 := snd p in 
    chk 337 (Ok (AppendResult_beq v197 NOT_APPENDED)) (
    step 338 (let! v198 := deref v196 in CloudGroup_append v198 "NSC" RP_METAR md_default) (fun p => let v199 := Some (fst p) in let v200 := snd p in 
    chk 338 (Ok (AppendResult_beq v200 NOT_APPENDED)) (
    step 339 (let! v201 := deref v199 in CloudGroup_append v201 "FEW040" RP_METAR md_default) (fun p => let v202 := Some (fst p) in let v203 := snd p in 
    chk 339 (Ok (AppendResult_beq v203 NOT_APPENDED)) (
    step 340 (let! v204 := deref v202 in CloudGroup_append v204 "VV004" RP_METAR md_default) (fun p => let v205 := Some (fst p) in let v206 := snd p in 
    chk 340 (Ok (AppendResult_beq v206 NOT_APPENDED)) (
    step 341 (let! v207 := deref v205 in CloudGroup_append v207 "SCT020TCU" RP_METAR md_default) (fun p => let v208 := Some (fst p) in let v209 := snd p in 
    chk 341 (Ok (AppendResult_beq v209 NOT_APPENDED)) (
    step 342 (let! v210 := deref v208 in CloudGroup_append v210 "SCT020CB" RP_METAR md_default) (fun p => let v211 := Some (fst p) in let v212 := snd p in 
    chk 342 (Ok (AppendResult_beq v212 NOT_APPENDED)) (
    step 343 (let! v213 := deref v211 in CloudGroup_append v213 "RMK" RP_METAR md_default) (fun p => let v214 := Some (fst p) in let v215 := snd p in 
    chk 343 (Ok (AppendResult_beq v215 NOT_APPENDED)) (
    step 344 (let! v216 := deref v214 in CloudGroup_append v216 "TEST" RP_METAR md_default) (fun p => let v217 := Some (fst p) in let v218 := snd p in 
    chk 344 (Ok (AppendResult_beq v218 NOT_APPENDED)) (
    step 346 (let! v219 := deref v8 in CloudGroup_append v219 "CLR" RP_METAR md_default) (fun p => let v220 := Some (fst p) in let v221 := snd p in 
    chk 346 (Ok (AppendResult_beq v221 NOT_APPENDED)) (
    step 347 (let! v222 := deref v220 in CloudGroup_append v222 "SKC" RP_METAR md_default) (fun p => let v223 := Some (fst p) in let v224 := snd p in 
    chk 347 (Ok (AppendResult_beq v224 NOT_APPENDED)) (
    step 348 (let! v225 := deref v223 in CloudGroup_append v225 "NCD" RP_METAR md_default) (fun p => let v226 := Some (fst p) in let v227 := snd p in 
    chk 348 (Ok (AppendResult_beq v227 NOT_APPENDED)) (
    step 349 (let! v228 := deref v226 in CloudGroup_append v228 "NSC" RP_METAR md_default) (fun p => let v229 := Some (fst p) in let v230 := snd p in 
    chk 349 (Ok (AppendResult_beq v230 NOT_APPENDED)) (
    step 350 (let! v231 := deref v229 in CloudGroup_append v231 "FEW040" RP_METAR md_default) (fun p => let v232 := Some (fst p) in let v233 := snd p in 
    chk 350 (Ok (AppendResult_beq v233 NOT_APPENDED)) (
    step 351 (let! v234 := deref v232 in CloudGroup_append v234 "VV004" RP_METAR md_default) (fun p => let v235 := Some (fst p) in let v236 := snd p in 
    chk 351 (Ok (AppendResult_beq v236 NOT_APPENDED)) (
    step 352 (let! v237 := deref v235 in CloudGroup_append v237 "SCT020TCU" RP_METAR md_default) (fun p => let v238 := Some (fst p) in let v239 := snd p in 
    chk 352 (Ok (AppendResult_beq v239 NOT_APPENDED)) (
    step 353 (let! v240 := deref v238 in CloudGroup_append v240 "SCT020CB" RP_METAR md_default) (fun p => let v241 := Some (fst p) in let v242 := snd p in 
    chk 353 (Ok (AppendResult_beq v242 NOT_APPENDED)) (
    step 354 (let! v243 := deref v241 in CloudGroup_append v243 "RMK" RP_METAR md_default) (fun p => let v244 := Some (fst p) in let v245 := snd p in 
    chk 354 (Ok (AppendResult_beq v245 NOT_APPENDED)) (
    step 355 (let! v246 := deref v244 in CloudGroup_append v246 "TEST" RP_METAR md_default) (fun p => let v247 := Some (fst p) in let v248 := snd p in 
    chk 355 (Ok (AppendResult_beq v248 NOT_APPENDED)) (
    None)))))))))))))))))))))))))))))))))))))))))))))))))))))))))))))))))))))))))))))))))))))))))))))))))))))))))))))))))))))))))))))))))))))))))))))))))))))))))))))))))))))))))))))))).

Definition t_CloudGroup_parseVerticalVisibilityMetar : option N :=
    step 366 ((CloudGroup_parse "VV016" RP_METAR md_default)) (fun v1 => 
    chk 367 (Ok (has_value v1)) (
    chk 368 (let! v2 := deref v1 in Ok (ClType_beq (cl_tp v2) Cl_VERTICAL_VISIBILITY)) (
    chk 369 (let! v3 := deref v1 in Ok (ClAmount_beq (cl_amnt v3) Am_OBSCURED)) (
    chk 370 (let! v4 := deref v1 in Ok (Distance_isReported (CloudGroup_verticalVisibility v4))) (
    chk 371 (let! v5 := deref v1 in let! v6 := deref (Distance_distance (CloudGroup_verticalVisibility v5)) in Ok (near v6 (dlit (1600) 1) (dlit (1) 2))) (
    chk 372 (let! v7 := deref v1 in Ok (DistUnit_beq (distUnit (CloudGroup_verticalVisibility v7)) FEET)) (
    chk 373 (let! v8 := deref v1 in Ok (ClConv_beq (cl_conv v8) Cv_NONE)) (
    chk 374 (let! v9 := deref v1 in Ok (negb (Distance_isReported (CloudGroup_height v9)))) (
    chk 375 (let! v10 := deref v1 in Ok (negb (Distance_isReported (CloudGroup_minHeight v10)))) (
    chk 376 (let! v11 := deref v1 in Ok (negb (Distance_isReported (CloudGroup_maxHeight v11)))) (
    chk 377 (let! v12 := deref v1 in Ok (negb (has_value (cl_rw v12)))) (
    chk 378 (let! v13 := deref v1 in Ok (negb (has_value (cl_dir v13)))) (
    None))))))))))))).

Definition t_CloudGroup_parseVerticalVisibilityTaf : option N :=
    step 382 ((CloudGroup_parse "VV016" RP_TAF md_default)) (fun v1 => 
    chk 383 (Ok (has_value v1)) (
    chk 384 (let! v2 := deref v1 in Ok (ClType_beq (cl_tp v2) Cl_VERTICAL_VISIBILITY)) (
    chk 385 (let! v3 := deref v1 in Ok (ClAmount_beq (cl_amnt v3) Am_OBSCURED)) (
    chk 386 (let! v4 := deref v1 in Ok (Distance_isReported (CloudGroup_verticalVisibility v4))) (
    chk 387 (let! v5 := deref v1 in let! v6 := deref (Distance_distance (CloudGroup_verticalVisibility v5)) in Ok (near v6 (dlit (1600) 1) (dlit (1) 2))) (
    chk 388 (let! v7 := deref v1 in Ok (DistUnit_beq (distUnit (CloudGroup_verticalVisibility v7)) FEET)) (
    chk 389 (let! v8 := deref v1 in Ok (ClConv_beq (cl_conv v8) Cv_NONE)) (
    chk 390 (let! v9 := deref v1 in Ok (negb (Distance_isReported (CloudGroup_height v9)))) (
    chk 391 (let! v10 := deref v1 in Ok (negb (Distance_isReported (CloudGroup_minHeight v10)))) (
    chk 392 (let! v11 := deref v1 in Ok (negb (Distance_isReported (CloudGroup_maxHeight v11)))) (
    chk 393 (let! v12 := deref v1 in Ok (negb (has_value (cl_rw v12)))) (
    chk 394 (let! v13 := deref v1 in Ok (negb (has_value (cl_dir v13)))) (
    None))))))))))))).

Definition t_CloudGroup_parseVerticalVisibilityZero : option N :=
    step 398 ((CloudGroup_parse "VV000" RP_METAR md_default)) (fun v1 => 
    chk 399 (Ok (has_value v1)) (
    chk 400 (let! v2 := deref v1 in Ok (ClType_beq (cl_tp v2) Cl_VERTICAL_VISIBILITY)) (
    chk 401 (let! v3 := deref v1 in Ok (ClAmount_beq (cl_amnt v3) Am_OBSCURED)) (
    chk 402 (let! v4 := deref v1 in Ok (Distance_isReported (CloudGroup_verticalVisibility v4))) (
    chk 403 (let! v5 := deref v1 in let! v6 := deref (Distance_distance (CloudGroup_verticalVisibility v5)) in Ok (near v6 (dlit (0) 1) (dlit (1) 2))) (
    chk 404 (let! v7 := deref v1 in Ok (DistUnit_beq (distUnit (CloudGroup_verticalVisibility v7)) FEET)) (
    chk 405 (let! v8 := deref v1 in Ok (ClConv_beq (cl_conv v8) Cv_NONE)) (
    chk 406 (let! v9 := deref v1 in Ok (negb (Distance_isReported (CloudGroup_height v9)))) (
    chk 407 (let! v10 := deref v1 in Ok (negb (Distance_isReported (CloudGroup_minHeight v10)))) (
    chk 408 (let! v11 := deref v1 in Ok (negb (Distance_isReported (CloudGroup_maxHeight v11)))) (
    chk 409 (let! v12 := deref v1 in Ok (negb (has_value (cl_rw v12)))) (
    chk 410 (let! v13 := deref v1 in Ok (negb (has_value (cl_dir v13)))) (
    None))))))))))))).

Definition t_CloudGroup_parseVerticalVisibilityNotReported : option N :=
    step 414 ((CloudGroup_parse "VV///" RP_METAR md_default)) (fun v1 => 
    chk 415 (Ok (has_value v1)) (
    chk 416 (let! v2 := deref v1 in Ok (ClType_beq (cl_tp v2) Cl_VERTICAL_VISIBILITY)) (
    chk 417 (let! v3 := deref v1 in Ok (ClAmount_beq (cl_amnt v3) Am_OBSCURED)) (
    chk 418 (let! v4 := deref v1 in Ok (negb (Distance_isReported (CloudGroup_verticalVisibility v4)))) (
    chk 419 (let! v5 := deref v1 in Ok (ClConv_beq (cl_conv v5) Cv_NONE)) (
    chk 420 (let! v6 := deref v1 in Ok (negb (Distance_isReported (CloudGroup_height v6)))) (
    chk 421 (let! v7 := deref v1 in Ok (negb (Distance_isReported (CloudGroup_minHeight v7)))) (
    chk 422 (let! v8 := deref v1 in Ok (negb (Distance_isReported (CloudGroup_maxHeight v8)))) (
    chk 423 (let! v9 := deref v1 in Ok (negb (has_value (cl_rw v9)))) (
    chk 424 (let! v10 := deref v1 in Ok (negb (has_value (cl_dir v10)))) (
    None))))))))))).

Definition t_CloudGroup_parseVerticalVisibilityWrongReportPart : option N :=
    chk 428 (let! v1 := (CloudGroup_parse "VV016" RP_UNKNOWN md_default) in Ok (negb (has_value v1))) (
    chk 429 (let! v2 := (CloudGroup_parse "VV016" RP_HEADER md_default) in Ok (negb (has_value v2))) (
    chk 430 (let! v3 := (CloudGroup_parse "VV016" RP_RMK md_default) in Ok (negb (has_value v3))) (
    None))).

Definition t_CloudGroup_parseVerticalVisibilityWrongFormat : option N :=
    chk 434 (let! v1 := (CloudGroup_parse "VV16" RP_METAR md_default) in Ok (negb (has_value v1))) (
    chk 435 (let! v2 := (CloudGroup_parse "VV0016" RP_METAR md_default) in Ok (negb (has_value v2))) (
    chk 436 (let! v3 := (CloudGroup_parse "VV01A" RP_METAR md_default) in Ok (negb (has_value v3))) (
    chk 437 (let! v4 := (CloudGroup_parse "VV//" RP_METAR md_default) in Ok (negb (has_value v4))) (
    chk 438 (let! v5 := (CloudGroup_parse "VV////" RP_METAR md_default) in Ok (negb (has_value v5))) (
    chk 439 (let! v6 := (CloudGroup_parse "VV016TCU" RP_METAR md_default) in Ok (negb (has_value v6))) (
    chk 440 (let! v7 := (CloudGroup_parse "VV016CB" RP_METAR md_default) in Ok (negb (has_value v7))) (
    chk 441 (let! v8 := (CloudGroup_parse "VV016///" RP_METAR md_default) in Ok (negb (has_value v8))) (
    None)))))))).

Definition t_CloudGroup_parseVariableCloudCoverWithHeight : option N :=
    step 452 ((CloudGroup_parse "FEW016" RP_RMK md_default)) (fun v1 => 
    chk 453 (Ok (has_value v1)) (
    chk 454 (let! v2 := deref v1 in Ok (ClType_beq (cl_tp v2) Cl_CLOUD_LAYER)) (
    step 455 (let! v3 := deref v1 in CloudGroup_append v3 "V" RP_RMK md_default) (fun p => let v4 := Some (fst p) in let v5 := snd p in 
    chk 455 (Ok (AppendResult_beq v5 APPENDED)) (
    step 456 (let! v6 := deref v4 in CloudGroup_append v6 "SCT" RP_RMK md_default) (fun p => let v7 := Some (fst p) in let v8 := snd p in 
    chk 456 (Ok (AppendResult_beq v8 APPENDED)) (
    chk 458 (let! v9 := deref v7 in Ok (ClAmount_beq (cl_amnt v9) Am_VARIABLE_FEW_SCATTERED)) (
    chk 459 (let! v10 := deref v7 in Ok (Distance_isReported (CloudGroup_height v10))) (
    chk 460 (let! v11 := deref v7 in let! v12 := deref (Distance_distance (CloudGroup_height v11)) in Ok (near v12 (dlit (1600) 1) (dlit (1) 2))) (
    chk 461 (let! v13 := deref v7 in Ok (DistUnit_beq (distUnit (CloudGroup_height v13)) FEET)) (
    chk 462 (let! v14 := deref v7 in Ok (ClConv_beq (cl_conv v14) Cv_NONE)) (
    step 464 ((CloudGroup_parse "SCT016" RP_RMK md_default)) (fun v15 => 
    chk 465 (Ok (has_value v15)) (
    chk 466 (let! v16 := deref v15 in Ok (ClType_beq (cl_tp v16) Cl_CLOUD_LAYER)) (
    step 467 (let! v17 := deref v15 in CloudGroup_append v17 "V" RP_RMK md_default) (fun p => let v18 := Some (fst p) in let v19 := snd p in 
    chk 467 (Ok (AppendResult_beq v19 APPENDED)) (
    step 468 (let! v20 := deref v18 in CloudGroup_append v20 "BKN" RP_RMK md_default) (fun p => let v21 := Some (fst p) in let v22 := snd p in 
    chk 468 (Ok (AppendResult_beq v22 APPENDED)) (
    chk 470 (let! v23 := deref v21 in Ok (ClAmount_beq (cl_amnt v23) Am_VARIABLE_SCATTERED_BROKEN)) (
    chk 471 (let! v24 := deref v21 in Ok (Distance_isReported (CloudGroup_height v24))) (
    chk 472 (let! v25 := deref v21 in let! v26 := deref (Distance_distance (CloudGroup_height v25)) in Ok (near v26 (dlit (1600) 1) (dlit (1) 2))) (
    chk 473 (let! v27 := deref v21 in Ok (DistUnit_beq (distUnit (CloudGroup_height v27)) FEET)) (
    chk 474 (let! v28 := deref v21 in Ok (ClConv_beq (cl_conv v28) Cv_NONE)) (
    step 476 ((CloudGroup_parse "BKN016" RP_RMK md_default)) (fun v29 => 
    chk 477 (Ok (has_value v29)) (
    chk 478 (let! v30 := deref v29 in Ok (ClType_beq (cl_tp v30) Cl_CLOUD_LAYER)) (
    step 479 (let! v31 := deref v29 in CloudGroup_append v31 "V" RP_RMK md_default) (fun p => let v32 := Some (fst p) in let v33 := snd p in 
    chk 479 (Ok (AppendResult_beq v33 APPENDED)) (
    step 480 (let! v34 := deref v32 in CloudGroup_append v34 "OVC" RP_RMK md_default) (fun p => let v35 := Some (fst p) in let v36 := snd p in 
    chk 480 (Ok (AppendResult_beq v36 APPENDED)) (
    chk 482 (let! v37 := deref v35 in Ok (ClAmount_beq (cl_amnt v37) Am_VARIABLE_BROKEN_OVERCAST)) (
    chk 483 (let! v38 := deref v35 in Ok (Distance_isReported (CloudGroup_height v38))) (
    chk 484 (let! v39 := deref v35 in let! v40 := deref (Distance_distance (CloudGroup_height v39)) in Ok (near v40 (dlit (1600) 1) (dlit (1) 2))) (
    chk 485 (let! v41 := deref v35 in Ok (DistUnit_beq (distUnit (CloudGroup_height v41)) FEET)) (
    chk 486 (let! v42 := deref v35 in Ok (ClConv_beq (cl_conv v42) Cv_NONE)) (
    None)))))))))))))))))))))))))))))))))))).

Definition t_CloudGroup_parseVariableCloudCoverWithoutHeight : option N :=
    step 490 ((CloudGroup_parse "FEW" RP_RMK md_default)) (fun v1 => 
    chk 491 (Ok (has_value v1)) (
    step 492 (let! v2 := deref v1 in CloudGroup_append v2 "V" RP_RMK md_default) (fun p => let v3 := Some (fst p) in let v4 := snd p in 
    chk 492 (Ok (AppendResult_beq v4 APPENDED)) (
    step 493 (let! v5 := deref v3 in CloudGroup_append v5 "SCT" RP_RMK md_default) (fun p => let v6 := Some (fst p) in let v7 := snd p in 
    chk 493 (Ok (AppendResult_beq v7 APPENDED)) (
    chk 495 (let! v8 := deref v6 in Ok (ClType_beq (cl_tp v8) Cl_CLOUD_LAYER)) (
    chk 496 (let! v9 := deref v6 in Ok (ClAmount_beq (cl_amnt v9) Am_VARIABLE_FEW_SCATTERED)) (
    chk 497 (let! v10 := deref v6 in Ok (ClConv_beq (cl_conv v10) Cv_NONE)) (
    chk 498 (let! v11 := deref v6 in Ok (negb (Distance_isReported (CloudGroup_height v11)))) (
    step 500 ((CloudGroup_parse "SCT" RP_RMK md_default)) (fun v12 => 
    chk 501 (Ok (has_value v12)) (
    step 502 (let! v13 := deref v12 in CloudGroup_append v13 "V" RP_RMK md_default) (fun p => let v14 := Some (fst p) in let v15 := snd p in 
    chk 502 (Ok (AppendResult_beq v15 APPENDED)) (
    step 503 (let! v16 := deref v14 in CloudGroup_append v16 "BKN" RP_RMK md_default) (fun p => let v17 := Some (fst p) in let v18 := snd p in 
    chk 503 (Ok (AppendResult_beq v18 APPENDED)) (
    chk 505 (let! v19 := deref v17 in Ok (ClType_beq (cl_tp v19) Cl_CLOUD_LAYER)) (
    chk 506 (let! v20 := deref v17 in Ok (ClAmount_beq (cl_amnt v20) Am_VARIABLE_SCATTERED_BROKEN)) (
    chk 507 (let! v21 := deref v17 in Ok (ClConv_beq (cl_conv v21) Cv_NONE)) (
    chk 508 (let! v22 := deref v17 in Ok (negb (Distance_isReported (CloudGroup_height v22)))) (
    step 510 ((CloudGroup_parse "BKN" RP_RMK md_default)) (fun v23 => 
    chk 511 (Ok (has_value v23)) (
    step 512 (let! v24 := deref v23 in CloudGroup_append v24 "V" RP_RMK md_default) (fun p => let v25 := Some (fst p) in let v26 := snd p in 
    chk 512 (Ok (AppendResult_beq v26 APPENDED)) (
    step 513 (let! v27 := deref v25 in CloudGroup_append v27 "OVC" RP_RMK md_default) (fun p => let v28 := Some (fst p) in let v29 := snd p in 
    chk 513 (Ok (AppendResult_beq v29 APPENDED)) (
    chk 515 (let! v30 := deref v28 in Ok (ClType_beq (cl_tp v30) Cl_CLOUD_LAYER)) (
    chk 516 (let! v31 := deref v28 in Ok (ClAmount_beq (cl_amnt v31) Am_VARIABLE_BROKEN_OVERCAST)) (
    chk 517 (let! v32 := deref v28 in Ok (ClConv_beq (cl_conv v32) Cv_NONE)) (
    chk 518 (let! v33 := deref v28 in Ok (negb (Distance_isReported (CloudGroup_height v33)))) (
    None)))))))))))))))))))))))))))))).

Definition t_CloudGroup_parseVariableCloudCoverWrongReportPart : option N :=
    chk 522 (let! v1 := (CloudGroup_parse "SCT" RP_UNKNOWN md_default) in Ok (negb (has_value v1))) (
    chk 523 (let! v2 := (CloudGroup_parse "SCT" RP_HEADER md_default) in Ok (negb (has_value v2))) (
    chk 524 (let! v3 := (CloudGroup_parse "SCT" RP_METAR md_default) in Ok (negb (has_value v3))) (
    chk 525 (let! v4 := (CloudGroup_parse "SCT" RP_TAF md_default) in Ok (negb (has_value v4))) (
    None)))).

Definition t_CloudGroup_parseVariableCloudCoverWrongFormatFirstCover : option N :=
    chk 529 (let! v1 := (CloudGroup_parse "CLR" RP_RMK md_default) in Ok (negb (has_value v1))) (
    chk 530 (let! v2 := (CloudGroup_parse "SKC" RP_RMK md_default) in Ok (negb (has_value v2))) (
    chk 531 (let! v3 := (CloudGroup_parse "NCD" RP_RMK md_default) in Ok (negb (has_value v3))) (
    chk 532 (let! v4 := (CloudGroup_parse "NSC" RP_RMK md_default) in Ok (negb (has_value v4))) (
    chk 533 (let! v5 := (CloudGroup_parse "AAA" RP_RMK md_default) in Ok (negb (has_value v5))) (
    chk 534 (let! v6 := (CloudGroup_parse "AAA040" RP_RMK md_default) in Ok (negb (has_value v6))) (
    chk 535 (let! v7 := (CloudGroup_parse "BCC040" RP_RMK md_default) in Ok (negb (has_value v7))) (
    chk 536 (let! v8 := (CloudGroup_parse "///040" RP_RMK md_default) in Ok (negb (has_value v8))) (
    chk 537 (let! v9 := (CloudGroup_parse "FEW///" RP_RMK md_default) in Ok (negb (has_value v9))) (
    chk 538 (let! v10 := (CloudGroup_parse "FEW040///" RP_RMK md_default) in Ok (negb (has_value v10))) (
    chk 539 (let! v11 := (CloudGroup_parse "FEW040TCU" RP_RMK md_default) in Ok (negb (has_value v11))) (
    chk 540 (let! v12 := (CloudGroup_parse "FEW040CB" RP_RMK md_default) in Ok (negb (has_value v12))) (
    chk 541 (let! v13 := (CloudGroup_parse "SCT0040" RP_RMK md_default) in Ok (negb (has_value v13))) (
    chk 542 (let! v14 := (CloudGroup_parse "SCT40" RP_RMK md_default) in Ok (negb (has_value v14))) (
    chk 543 (let! v15 := (CloudGroup_parse "SCC040" RP_RMK md_default) in Ok (negb (has_value v15))) (
    chk 544 (let! v16 := (CloudGroup_parse "SCT04A" RP_RMK md_default) in Ok (negb (has_value v16))) (
    chk 545 (let! v17 := (CloudGroup_parse "SCT040TCB" RP_RMK md_default) in Ok (negb (has_value v17))) (
    chk 546 (let! v18 := (CloudGroup_parse "SCT040CCU" RP_RMK md_default) in Ok (negb (has_value v18))) (
    chk 547 (let! v19 := (CloudGroup_parse "SCT040////" RP_RMK md_default) in Ok (negb (has_value v19))) (
    chk 548 (let! v20 := (CloudGroup_parse "SCT040//" RP_RMK md_default) in Ok (negb (has_value v20))) (
    chk 549 (let! v21 := (CloudGroup_parse "////040" RP_RMK md_default) in Ok (negb (has_value v21))) (
    chk 550 (let! v22 := (CloudGroup_parse "//040" RP_RMK md_default) in Ok (negb (has_value v22))) (
    chk 551 (let! v23 := (CloudGroup_parse "SCT////" RP_RMK md_default) in Ok (negb (has_value v23))) (
    chk 552 (let! v24 := (CloudGroup_parse "SCT//" RP_RMK md_default) in Ok (negb (has_value v24))) (
    chk 553 (let! v25 := (CloudGroup_parse "VV002" RP_RMK md_default) in Ok (negb (has_value v25))) (
    chk 554 (let! v26 := (CloudGroup_parse "VV///" RP_RMK md_default) in Ok (negb (has_value v26))) (
    chk 555 (let! v27 := (CloudGroup_parse "VV" RP_RMK md_default) in Ok (negb (has_value v27))) (
    None))))))))))))))))))))))))))).

Definition t_CloudGroup_parseVariableCloudCoverWrongFormatV : option N :=
    step 559 ((CloudGroup_parse "FEW" RP_RMK md_default)) (fun v1 => 
    chk 560 (Ok (has_value v1)) (
    step 561 (let! v2 := deref v1 in CloudGroup_append v2 "A" RP_RMK md_default) (fun p => let v3 := Some (fst p) in let v4 := snd p in 
    chk 561 (Ok (AppendResult_beq v4 GROUP_INVALIDATED)) (
    step 563 ((CloudGroup_parse "FEW" RP_RMK md_default)) (fun v5 => 
    chk 564 (Ok (has_value v5)) (
    step 565 (let! v6 := deref v5 in CloudGroup_append v6 "BKN" RP_RMK md_default) (fun p => let v7 := Some (fst p) in let v8 := snd p in 
    chk 565 (Ok (AppendResult_beq v8 GROUP_INVALIDATED)) (
    step 567 ((CloudGroup_parse "FEW" RP_RMK md_default)) (fun v9 => 
    chk 568 (Ok (has_value v9)) (
    step 569 (let! v10 := deref v9 in CloudGroup_append v10 "BKN010" RP_RMK md_default) (fun p => let v11 := Some (fst p) in let v12 := snd p in 
    chk 569 (Ok (AppendResult_beq v12 GROUP_INVALIDATED)) (
    step 571 ((CloudGroup_parse "FEW" RP_RMK md_default)) (fun v13 => 
    chk 572 (Ok (has_value v13)) (
    step 573 (let! v14 := deref v13 in CloudGroup_append v14 "///" RP_RMK md_default) (fun p => let v15 := Some (fst p) in let v16 := snd p in 
    chk 573 (Ok (AppendResult_beq v16 GROUP_INVALIDATED)) (
    step 575 ((CloudGroup_parse "FEW" RP_RMK md_default)) (fun v17 => 
    chk 576 (Ok (has_value v17)) (
    step 577 (let! v18 := deref v17 in CloudGroup_append v18 "VV002" RP_RMK md_default) (fun p => let v19 := Some (fst p) in let v20 := snd p in 
    chk 577 (Ok (AppendResult_beq v20 GROUP_INVALIDATED)) (
    step 579 ((CloudGroup_parse "FEW" RP_RMK md_default)) (fun v21 => 
    chk 580 (Ok (has_value v21)) (
    step 581 (let! v22 := deref v21 in CloudGroup_append v22 "VV" RP_RMK md_default) (fun p => let v23 := Some (fst p) in let v24 := snd p in 
    chk 581 (Ok (AppendResult_beq v24 GROUP_INVALIDATED)) (
    None)))))))))))))))))))))))).

Definition t_CloudGroup_parseVariableCloudCoverWrongFormatSecondCover : option N :=
    step 585 ((CloudGroup_parse "FEW" RP_RMK md_default)) (fun v1 => 
    chk 586 (Ok (has_value v1)) (
    step 587 (let! v2 := deref v1 in CloudGroup_append v2 "V" RP_RMK md_default) (fun p => let v3 := Some (fst p) in let v4 := snd p in 
    chk 587 (Ok (AppendResult_beq v4 APPENDED)) (
    step 588 (let! v5 := deref v3 in CloudGroup_append v5 "V" RP_RMK md_default) (fun p => let v6 := Some (fst p) in let v7 := snd p in 
    chk 588 (Ok (AppendResult_beq v7 GROUP_INVALIDATED)) (
    step 590 ((CloudGroup_parse "FEW" RP_RMK md_default)) (fun v8 => 
    chk 591 (Ok (has_value v8)) (
    step 592 (let! v9 := deref v8 in CloudGroup_append v9 "V" RP_RMK md_default) (fun p => let v10 := Some (fst p) in let v11 := snd p in 
    chk 592 (Ok (AppendResult_beq v11 APPENDED)) (
    step 593 (let! v12 := deref v10 in CloudGroup_append v12 "AAA" RP_RMK md_default) (fun p => let v13 := Some (fst p) in let v14 := snd p in 
    chk 593 (Ok (AppendResult_beq v14 GROUP_INVALIDATED)) (
    step 595 ((CloudGroup_parse "FEW" RP_RMK md_default)) (fun v15 => 
    chk 596 (Ok (has_value v15)) (
    step 597 (let! v16 := deref v15 in CloudGroup_append v16 "V" RP_RMK md_default) (fun p => let v17 := Some (fst p) in let v18 := snd p in 
    chk 597 (Ok (AppendResult_beq v18 APPENDED)) (
    step 598 (let! v19 := deref v17 in CloudGroup_append v19 "SCT010" RP_RMK md_default) (fun p => let v20 := Some (fst p) in let v21 := snd p in 
    chk 598 (Ok (AppendResult_beq v21 GROUP_INVALIDATED)) (
    step 600 ((CloudGroup_parse "FEW" RP_RMK md_default)) (fun v22 => 
    chk 601 (Ok (has_value v22)) (
    step 602 (let! v23 := deref v22 in CloudGroup_append v23 "V" RP_RMK md_default) (fun p => let v24 := Some (fst p) in let v25 := snd p in 
    chk 602 (Ok (AppendResult_beq v25 APPENDED)) (
    step 603 (let! v26 := deref v24 in CloudGroup_append v26 "///" RP_RMK md_default) (fun p => let v27 := Some (fst p) in let v28 := snd p in 
    chk 603 (Ok (AppendResult_beq v28 GROUP_INVALIDATED)) (
    None)))))))))))))))))))))))).

Definition t_CloudGroup_parseVariableCloudCoverWrongCombinationsFew : option N :=
    step 607 ((CloudGroup_parse "FEW" RP_RMK md_default)) (fun v1 => 
    chk 608 (Ok (has_value v1)) (
    step 609 (let! v2 := deref v1 in CloudGroup_append v2 "V" RP_RMK md_default) (fun p => let v3 := Some (fst p) in let v4 := snd p in 
    chk 609 (Ok (AppendResult_beq v4 APPENDED)) (
    step 610 (let! v5 := deref v3 in CloudGroup_append v5 "FEW" RP_RMK md_default) (fun p => let v6 := Some (fst p) in let v7 := snd p in 
    chk 610 (Ok (AppendResult_beq v7 GROUP_INVALIDATED)) (
    step 612 ((CloudGroup_parse "FEW" RP_RMK md_default)) (fun v8 => 
    chk 613 (Ok (has_value v8)) (
    step 614 (let! v9 := deref v8 in CloudGroup_append v9 "V" RP_RMK md_default) (fun p => let v10 := Some (fst p) in let v11 := snd p in 
    chk 614 (Ok (AppendResult_beq v11 APPENDED)) (
    step 615 (let! v12 := deref v10 in CloudGroup_append v12 "BKN" RP_RMK md_default) (fun p => let v13 := Some (fst p) in let v14 := snd p in 
    chk 615 (Ok (AppendResult_beq v14 GROUP_INVALIDATED)) (
    step 617 ((CloudGroup_parse "FEW" RP_RMK md_default)) (fun v15 => 
    chk 618 (Ok (has_value v15)) (
    step 619 (let! v16 := deref v15 in CloudGroup_append v16 "V" RP_RMK md_default) (fun p => let v17 := Some (fst p) in let v18 := snd p in 
    chk 619 (Ok (AppendResult_beq v18 APPENDED)) (
    step 620 (let! v19 := deref v17 in CloudGroup_append v19 "OVC" RP_RMK md_default) (fun p => let v20 := Some (fst p) in let v21 := snd p in 
    chk 620 (Ok (AppendResult_beq v21 GROUP_INVALIDATED)) (
    step 622 ((CloudGroup_parse "FEW" RP_RMK md_default)) (fun v22 => 
    chk 623 (Ok (has_value v22)) (
    step 624 (let! v23 := deref v22 in CloudGroup_append v23 "V" RP_RMK md_default) (fun p => let v24 := Some (fst p) in let v25 := snd p in 
    chk 624 (Ok (AppendResult_beq v25 APPENDED)) (
    step 625 (let! v26 := deref v24 in CloudGroup_append v26 "VV" RP_RMK md_default) (fun p => let v27 := Some (fst p) in let v28 := snd p in 
    chk 625 (Ok (AppendResult_beq v28 GROUP_INVALIDATED)) (
    step 627 ((CloudGroup_parse "FEW" RP_RMK md_default)) (fun v29 => 
    chk 628 (Ok (has_value v29)) (
    step 629 (let! v30 := deref v29 in CloudGroup_append v30 "V" RP_RMK md_default) (fun p => let v31 := Some (fst p) in let v32 := snd p in 
    chk 629 (Ok (AppendResult_beq v32 APPENDED)) (
    step 630 (let! v33 := deref v31 in CloudGroup_append v33 "CLR" RP_RMK md_default) (fun p => let v34 := Some (fst p) in let v35 := snd p in 
    chk 630 (Ok (AppendResult_beq v35 GROUP_INVALIDATED)) (
    step 632 ((CloudGroup_parse "FEW" RP_RMK md_default)) (fun v36 => 
    chk 633 (Ok (has_value v36)) (
    step 634 (let! v37 := deref v36 in CloudGroup_append v37 "V" RP_RMK md_default) (fun p => let v38 := Some (fst p) in let v39 := snd p in 
    chk 634 (Ok (AppendResult_beq v39 APPENDED)) (
    step 635 (let! v40 := deref v38 in CloudGroup_append v40 "SKC" RP_RMK md_default) (fun p => let v41 := Some (fst p) in let v42 := snd p in 
    chk 635 (Ok (AppendResult_beq v42 GROUP_INVALIDATED)) (
    step 637 ((CloudGroup_parse "FEW" RP_RMK md_default)) (fun v43 => 
    chk 638 (Ok (has_value v43)) (
    step 639 (let! v44 := deref v43 in CloudGroup_append v44 "V" RP_RMK md_default) (fun p => let v45 := Some (fst p) in let v46 := snd p in 
    chk 639 (Ok (AppendResult_beq v46 APPENDED)) (
    step 640 (let! v47 := deref v45 in CloudGroup_append v47 "NSC" RP_RMK md_default) (fun p => let v48 := Some (fst p) in let v49 := snd p in 
    chk 640 (Ok (AppendResult_beq v49 GROUP_INVALIDATED)) (
    step 642 ((CloudGroup_parse "FEW" RP_RMK md_default)) (fun v50 => 
    chk 643 (Ok (has_value v50)) (
    step 644 (let! v51 := deref v50 in CloudGroup_append v51 "V" RP_RMK md_default) (fun p => let v52 := Some (fst p) in let v53 := snd p in 
    chk 644 (Ok (AppendResult_beq v53 APPENDED)) (
    step 645 (let! v54 := deref v52 in CloudGroup_append v54 "NCD" RP_RMK md_default) (fun p => let v55 := Some (fst p) in let v56 := snd p in 
    chk 645 (Ok (AppendResult_beq v56 GROUP_INVALIDATED)) (
    None)))))))))))))))))))))))))))))))))))))))))))))))).

Definition t_CloudGroup_parseVariableCloudCoverWrongCombinationsSct : option N :=
    step 649 ((CloudGroup_parse "SCT" RP_RMK md_default)) (fun v1 => 
    chk 650 (Ok (has_value v1)) (
    step 651 (let! v2 := deref v1 in CloudGroup_append v2 "V" RP_RMK md_default) (fun p => let v3 := Some (fst p) in let v4 := snd p in 
    chk 651 (Ok (AppendResult_beq v4 APPENDED)) (
    step 652 (let! v5 := deref v3 in CloudGroup_append v5 "SCT" RP_RMK md_default) (fun p => let v6 := Some (fst p) in let v7 := snd p in 
    chk 652 (Ok (AppendResult_beq v7 GROUP_INVALIDATED)) (
    step 654 ((CloudGroup_parse "SCT" RP_RMK md_default)) (fun v8 => 
    chk 655 (Ok (has_value v8)) (
    step 656 (let! v9 := deref v8 in CloudGroup_append v9 "V" RP_RMK md_default) (fun p => let v10 := Some (fst p) in let v11 := snd p in 
    chk 656 (Ok (AppendResult_beq v11 APPENDED)) (
    step 657 (let! v12 := deref v10 in CloudGroup_append v12 "FEW" RP_RMK md_default) (fun p => let v13 := Some (fst p) in let v14 := snd p in 
    chk 657 (Ok (AppendResult_beq v14 GROUP_INVALIDATED)) (
    step 659 ((CloudGroup_parse "SCT" RP_RMK md_default)) (fun v15 => 
    chk 660 (Ok (has_value v15)) (
    step 661 (let! v16 := deref v15 in CloudGroup_append v16 "V" RP_RMK md_default) (fun p => let v17 := Some (fst p) in let v18 := snd p in 
    chk 661 (Ok (AppendResult_beq v18 APPENDED)) (
    step 662 (let! v19 := deref v17 in CloudGroup_append v19 "OVC" RP_RMK md_default) (fun p => let v20 := Some (fst p) in let v21 := snd p in 
    chk 662 (Ok (AppendResult_beq v21 GROUP_INVALIDATED)) (
    step 664 ((CloudGroup_parse "SCT" RP_RMK md_default)) (fun v22 => 
    chk 665 (Ok (has_value v22)) (
    step 666 (let! v23 := deref v22 in CloudGroup_append v23 "V" RP_RMK md_default) (fun p => let v24 := Some (fst p) in let v25 := snd p in 
    chk 666 (Ok (AppendResult_beq v25 APPENDED)) (
    step 667 (let! v26 := deref v24 in CloudGroup_append v26 "VV" RP_RMK md_default) (fun p => let v27 := Some (fst p) in let v28 := snd p in 
    chk 667 (Ok (AppendResult_beq v28 GROUP_INVALIDATED)) (
    step 669 ((CloudGroup_parse "SCT" RP_RMK md_default)) (fun v29 => 
    chk 670 (Ok (has_value v29)) (
    step 671 (let! v30 := deref v29 in CloudGroup_append v30 "V" RP_RMK md_default) (fun p => let v31 := Some (fst p) in let v32 := snd p in 
    chk 671 (Ok (AppendResult_beq v32 APPENDED)) (
    step 672 (let! v33 := deref v31 in CloudGroup_append v33 "CLR" RP_RMK md_default) (fun p => let v34 := Some (fst p) in let v35 := snd p in 
    chk 672 (Ok (AppendResult_beq v35 GROUP_INVALIDATED)) (
    step 674 ((CloudGroup_parse "SCT" RP_RMK md_default)) (fun v36 => 
    chk 675 (Ok (has_value v36)) (
    step 676 (let! v37 := deref v36 in CloudGroup_append v37 "V" RP_RMK md_default) (fun p => let v38 := Some (fst p) in let v39 := snd p in 
    chk 676 (Ok (AppendResult_beq v39 APPENDED)) (
    step 677 (let! v40 := deref v38 in CloudGroup_append v40 "SKC" RP_RMK md_default) (fun p => let v41 := Some (fst p) in let v42 := snd p in 
    chk 677 (Ok (AppendResult_beq v42 GROUP_INVALIDATED)) (
    step 679 ((CloudGroup_parse "SCT" RP_RMK md_default)) (fun v43 => 
    chk 680 (Ok (has_value v43)) (
    step 681 (let! v44 := deref v43 in CloudGroup_append v44 "V" RP_RMK md_default) (fun p => let v45 := Some (fst p) in let v46 := snd p in 
    chk 681 (Ok (AppendResult_beq v46 APPENDED)) (
    step 682 (let! v47 := deref v45 in CloudGroup_append v47 "NSC" RP_RMK md_default) (fun p => let v48 := Some (fst p) in let v49 := snd p in 
    chk 682 (Ok (AppendResult_beq v49 GROUP_INVALIDATED)) (
    step 684 ((CloudGroup_parse "SCT" RP_RMK md_default)) (fun v50 => 
    chk 685 (Ok (has_value v50)) (
    step 686 (let! v51 := deref v50 in CloudGroup_append v51 "V" RP_RMK md_default) (fun p => let v52 := Some (fst p) in let v53 := snd p in 
    chk 686 (Ok (AppendResult_beq v53 APPENDED)) (
    step 687 (let! v54 := deref v52 in CloudGroup_append v54 "NCD" RP_RMK md_default) (fun p => let v55 := Some (fst p) in let v56 := snd p in 
    chk 687 (Ok (AppendResult_beq v56 GROUP_INVALIDATED)) (
    None)))))))))))))))))))))))))))))))))))))))))))))))).

Definition t_CloudGroup_parseVariableCloudCoverWrongCombinationsBkn : option N :=
    step 691 ((CloudGroup_parse "BKN" RP_RMK md_default)) (fun v1 => 
    chk 692 (Ok (has_value v1)) (
    step 693 (let! v2 := deref v1 in CloudGroup_append v2 "V" RP_RMK md_default) (fun p => let v3 := Some (fst p) in let v4 := snd p in 
    chk 693 (Ok (AppendResult_beq v4 APPENDED)) (
    step 694 (let! v5 := deref v3 in CloudGroup_append v5 "BKN" RP_RMK md_default) (fun p => let v6 := Some (fst p) in let v7 := snd p in 
    chk 694 (Ok (AppendResult_beq v7 GROUP_INVALIDATED)) (
    step 696 ((CloudGroup_parse "BKN" RP_RMK md_default)) (fun v8 => 
    chk 697 (Ok (has_value v8)) (
    step 698 (let! v9 := deref v8 in CloudGroup_append v9 "V" RP_RMK md_default) (fun p => let v10 := Some (fst p) in let v11 := snd p in 
    chk 698 (Ok (AppendResult_beq v11 APPENDED)) (
    step 699 (let! v12 := deref v10 in CloudGroup_append v12 "FEW" RP_RMK md_default) (fun p => let v13 := Some (fst p) in let v14 := snd p in 
    chk 699 (Ok (AppendResult_beq v14 GROUP_INVALIDATED)) (
    step 701 ((CloudGroup_parse "BKN" RP_RMK md_default)) (fun v15 => 
    chk 702 (Ok (has_value v15)) (
    step 703 (let! v16 := deref v15 in CloudGroup_append v16 "V" RP_RMK md_default) (fun p => let v17 := Some (fst p) in let v18 := snd p in 
    chk 703 (Ok (AppendResult_beq v18 APPENDED)) (
    step 704 (let! v19 := deref v17 in CloudGroup_append v19 "SCT" RP_RMK md_default) (fun p => let v20 := Some (fst p) in let v21 := snd p in 
    chk 704 (Ok (AppendResult_beq v21 GROUP_INVALIDATED)) (
    step 706 ((CloudGroup_parse "BKN" RP_RMK md_default)) (fun v22 => 
    chk 707 (Ok (has_value v22)) (
    step 708 (let! v23 := deref v22 in CloudGroup_append v23 "V" RP_RMK md_default) (fun p => let v24 := Some (fst p) in let v25 := snd p in 
    chk 708 (Ok (AppendResult_beq v25 APPENDED)) (
    step 709 (let! v26 := deref v24 in CloudGroup_append v26 "VV" RP_RMK md_default) (fun p => let v27 := Some (fst p) in let v28 := snd p in 
    chk 709 (Ok (AppendResult_beq v28 GROUP_INVALIDATED)) (
    step 711 ((CloudGroup_parse "BKN" RP_RMK md_default)) (fun v29 => 
    chk 712 (Ok (has_value v29)) (
    step 713 (let! v30 := deref v29 in CloudGroup_append v30 "V" RP_RMK md_default) (fun p => let v31 := Some (fst p) in let v32 := snd p in 
    chk 713 (Ok (AppendResult_beq v32 APPENDED)) (
    step 714 (let! v33 := deref v31 in CloudGroup_append v33 "CLR" RP_RMK md_default) (fun p => let v34 := Some (fst p) in let v35 := snd p in 
    chk 714 (Ok (AppendResult_beq v35 GROUP_INVALIDATED)) (
    step 716 ((CloudGroup_parse "BKN" RP_RMK md_default)) (fun v36 => 
    chk 717 (Ok (has_value v36)) (
    step 718 (let! v37 := deref v36 in CloudGroup_append v37 "V" RP_RMK md_default) (fun p => let v38 := Some (fst p) in let v39 := snd p in 
    chk 718 (Ok (AppendResult_beq v39 APPENDED)) (
    step 719 (let! v40 := deref v38 in CloudGroup_append v40 "SKC" RP_RMK md_default) (fun p => let v41 := Some (fst p) in let v42 := snd p in 
    chk 719 (Ok (AppendResult_beq v42 GROUP_INVALIDATED)) (
    step 721 ((CloudGroup_parse "BKN" RP_RMK md_default)) (fun v43 => 
    chk 722 (Ok (has_value v43)) (
    step 723 (let! v44 := deref v43 in CloudGroup_append v44 "V" RP_RMK md_default) (fun p => let v45 := Some (fst p) in let v46 := snd p in 
    chk 723 (Ok (AppendResult_beq v46 APPENDED)) (
    step 724 (let! v47 := deref v45 in CloudGroup_append v47 "NSC" RP_RMK md_default) (fun p => let v48 := Some (fst p) in let v49 := snd p in 
    chk 724 (Ok (AppendResult_beq v49 GROUP_INVALIDATED)) (
    step 726 ((CloudGroup_parse "BKN" RP_RMK md_default)) (fun v50 => 
    chk 727 (Ok (has_value v50)) (
    step 728 (let! v51 := deref v50 in CloudGroup_append v51 "V" RP_RMK md_default) (fun p => let v52 := Some (fst p) in let v53 := snd p in 
    chk 728 (Ok (AppendResult_beq v53 APPENDED)) (
    step 729 (let! v54 := deref v52 in CloudGroup_append v54 "NCD" RP_RMK md_default) (fun p => let v55 := Some (fst p) in let v56 := snd p in 
    chk 729 (Ok (AppendResult_beq v56 GROUP_INVALIDATED)) (
    None)))))))))))))))))))))))))))))))))))))))))))))))).

Definition t_CloudGroup_parseVariableCloudCoverWrongCombinationsOvc : option N :=
    step 733 ((CloudGroup_parse "OVC" RP_RMK md_default)) (fun v1 => 
    chk 734 (Ok (has_value v1)) (
    step 735 (let! v2 := deref v1 in CloudGroup_append v2 "V" RP_RMK md_default) (fun p => let v3 := Some (fst p) in let v4 := snd p in 
    chk 735 (Ok (AppendResult_beq v4 APPENDED)) (
    step 736 (let! v5 := deref v3 in CloudGroup_append v5 "OVC" RP_RMK md_default) (fun p => let v6 := Some (fst p) in let v7 := snd p in 
    chk 736 (Ok (AppendResult_beq v7 GROUP_INVALIDATED)) (
    step 738 ((CloudGroup_parse "OVC" RP_RMK md_default)) (fun v8 => 
    chk 739 (Ok (has_value v8)) (
    step 740 (let! v9 := deref v8 in CloudGroup_append v9 "V" RP_RMK md_default) (fun p => let v10 := Some (fst p) in let v11 := snd p in 
    chk 740 (Ok (AppendResult_beq v11 APPENDED)) (
    step 741 (let! v12 := deref v10 in CloudGroup_append v12 "FEW" RP_RMK md_default) (fun p => let v13 := Some (fst p) in let v14 := snd p in 
    chk 741 (Ok (AppendResult_beq v14 GROUP_INVALIDATED)) (
    step 743 ((CloudGroup_parse "OVC" RP_RMK md_default)) (fun v15 => 
    chk 744 (Ok (has_value v15)) (
    step 745 (let! v16 := deref v15 in CloudGroup_append v16 "V" RP_RMK md_default) (fun p => let v17 := Some (fst p) in let v18 := snd p in 
    chk 745 (Ok (AppendResult_beq v18 APPENDED)) (
    step 746 (let! v19 := deref v17 in CloudGroup_append v19 "SCT" RP_RMK md_default) (fun p => let v20 := Some (fst p) in let v21 := snd p in 
    chk 746 (Ok (AppendResult_beq v21 GROUP_INVALIDATED)) (
    step 748 ((CloudGroup_parse "OVC" RP_RMK md_default)) (fun v22 => 
    chk 749 (Ok (has_value v22)) (
    step 750 (let! v23 := deref v22 in CloudGroup_append v23 "V" RP_RMK md_default) (fun p => let v24 := Some (fst p) in let v25 := snd p in 
    chk 750 (Ok (AppendResult_beq v25 APPENDED)) (
    step 751 (let! v26 := deref v24 in CloudGroup_append v26 "VV" RP_RMK md_default) (fun p => let v27 := Some (fst p) in let v28 := snd p in 
    chk 751 (Ok (AppendResult_beq v28 GROUP_INVALIDATED)) (
    step 753 ((CloudGroup_parse "OVC" RP_RMK md_default)) (fun v29 => 
    chk 754 (Ok (has_value v29)) (
    step 755 (let! v30 := deref v29 in CloudGroup_append v30 "V" RP_RMK md_default) (fun p => let v31 := Some (fst p) in let v32 := snd p in 
    chk 755 (Ok (AppendResult_beq v32 APPENDED)) (
    step 756 (let! v33 := deref v31 in CloudGroup_append v33 "CLR" RP_RMK md_default) (fun p => let v34 := Some (fst p) in let v35 := snd p in 
    chk 756 (Ok (AppendResult_beq v35 GROUP_INVALIDATED)) (
    step 758 ((CloudGroup_parse "OVC" RP_RMK md_default)) (fun v36 => 
    chk 759 (Ok (has_value v36)) (
    step 760 (let! v37 := deref v36 in CloudGroup_append v37 "V" RP_RMK md_default) (fun p => let v38 := Some (fst p) in let v39 := snd p in 
    chk 760 (Ok (AppendResult_beq v39 APPENDED)) (
    step 761 (let! v40 := deref v38 in CloudGroup_append v40 "SKC" RP_RMK md_default) (fun p => let v41 := Some (fst p) in let v42 := snd p in 
    chk 761 (Ok (AppendResult_beq v42 GROUP_INVALIDATED)) (
    step 763 ((CloudGroup_parse "OVC" RP_RMK md_default)) (fun v43 => 
    chk 764 (Ok (has_value v43)) (
    step 765 (let! v44 := deref v43 in CloudGroup_append v44 "V" RP_RMK md_default) (fun p => let v45 := Some (fst p) in let v46 := snd p in 
    chk 765 (Ok (AppendResult_beq v46 APPENDED)) (
    step 766 (let! v47 := deref v45 in CloudGroup_append v47 "NSC" RP_RMK md_default) (fun p => let v48 := Some (fst p) in let v49 := snd p in 
    chk 766 (Ok (AppendResult_beq v49 GROUP_INVALIDATED)) (
    step 768 ((CloudGroup_parse "OVC" RP_RMK md_default)) (fun v50 => 
    chk 769 (Ok (has_value v50)) (
    step 770 (let! v51 := deref v50 in CloudGroup_append v51 "V" RP_RMK md_default) (fun p => let v52 := Some (fst p) in let v53 := snd p in 
    chk 770 (Ok (AppendResult_beq v53 APPENDED)) (
    step 771 (let! v54 := deref v52 in CloudGroup_append v54 "NCD" RP_RMK md_default) (fun p => let v55 := Some (fst p) in let v56 := snd p in 
    chk 771 (Ok (AppendResult_beq v56 GROUP_INVALIDATED)) (
    step 773 ((CloudGroup_parse "OVC" RP_RMK md_default)) (fun v57 => 
    chk 774 (Ok (has_value v57)) (
    step 775 (let! v58 := deref v57 in CloudGroup_append v58 "V" RP_RMK md_default) (fun p => let v59 := Some (fst p) in let v60 := snd p in 
    chk 775 (Ok (AppendResult_beq v60 APPENDED)) (
    step 776 (let! v61 := deref v59 in CloudGroup_append v61 "BKN" RP_RMK md_default) (fun p => let v62 := Some (fst p) in let v63 := snd p in 
    chk 776 (Ok (AppendResult_beq v63 GROUP_INVALIDATED)) (
    None)))))))))))))))))))))))))))))))))))))))))))))))))))))).

Definition t_CloudGroup_parseClr : option N :=
    step 792 ((CloudGroup_parse "CLR" RP_METAR md_default)) (fun v1 => 
    chk 793 (Ok (has_value v1)) (
    chk 794 (let! v2 := deref v1 in Ok (ClType_beq (cl_tp v2) Cl_NO_CLOUDS)) (
    chk 795 (let! v3 := deref v1 in Ok (ClAmount_beq (cl_amnt v3) Am_NONE_CLR)) (
    chk 796 (let! v4 := deref v1 in Ok (negb (Distance_isReported (CloudGroup_height v4)))) (
    chk 797 (let! v5 := deref v1 in Ok (ClConv_beq (cl_conv v5) Cv_NONE)) (
    chk 798 (let! v6 := deref v1 in Ok (negb (Distance_isReported (CloudGroup_verticalVisibility v6)))) (
    chk 799 (let! v7 := deref v1 in Ok (negb (Distance_isReported (CloudGroup_minHeight v7)))) (
    chk 800 (let! v8 := deref v1 in Ok (negb (Distance_isReported (CloudGroup_maxHeight v8)))) (
    chk 801 (let! v9 := deref v1 in Ok (negb (has_value (cl_rw v9)))) (
    chk 802 (let! v10 := deref v1 in Ok (negb (has_value (cl_dir v10)))) (
    step 804 ((CloudGroup_parse "CLR" RP_TAF md_default)) (fun v11 => 
    chk 805 (Ok (has_value v11)) (
    chk 806 (let! v12 := deref v11 in Ok (ClType_beq (cl_tp v12) Cl_NO_CLOUDS)) (
    chk 807 (let! v13 := deref v11 in Ok (ClAmount_beq (cl_amnt v13) Am_NONE_CLR)) (
    chk 808 (let! v14 := deref v11 in Ok (negb (Distance_isReported (CloudGroup_height v14)))) (
    chk 809 (let! v15 := deref v11 in Ok (ClConv_beq (cl_conv v15) Cv_NONE)) (
    chk 810 (let! v16 := deref v11 in Ok (negb (Distance_isReported (CloudGroup_verticalVisibility v16)))) (
    chk 811 (let! v17 := deref v11 in Ok (negb (Distance_isReported (CloudGroup_minHeight v17)))) (
    chk 812 (let! v18 := deref v11 in Ok (negb (Distance_isReported (CloudGroup_maxHeight v18)))) (
    chk 813 (let! v19 := deref v11 in Ok (negb (has_value (cl_rw v19)))) (
    chk 814 (let! v20 := deref v11 in Ok (negb (has_value (cl_dir v20)))) (
    None)))))))))))))))))))))).

Definition t_CloudGroup_parseSkc : option N :=
    step 823 ((CloudGroup_parse "SKC" RP_METAR md_default)) (fun v1 => 
    chk 824 (Ok (has_value v1)) (
    chk 825 (let! v2 := deref v1 in Ok (ClType_beq (cl_tp v2) Cl_NO_CLOUDS)) (
    chk 826 (let! v3 := deref v1 in Ok (ClAmount_beq (cl_amnt v3) Am_NONE_SKC)) (
    chk 827 (let! v4 := deref v1 in Ok (negb (Distance_isReported (CloudGroup_height v4)))) (
    chk 828 (let! v5 := deref v1 in Ok (ClConv_beq (cl_conv v5) Cv_NONE)) (
    chk 829 (let! v6 := deref v1 in Ok (negb (Distance_isReported (CloudGroup_verticalVisibility v6)))) (
    chk 830 (let! v7 := deref v1 in Ok (negb (Distance_isReported (CloudGroup_minHeight v7)))) (
    chk 831 (let! v8 := deref v1 in Ok (negb (Distance_isReported (CloudGroup_maxHeight v8)))) (
    chk 832 (let! v9 := deref v1 in Ok (negb (has_value (cl_rw v9)))) (
    chk 833 (let! v10 := deref v1 in Ok (negb (has_value (cl_dir v10)))) (
    step 835 ((CloudGroup_parse "SKC" RP_TAF md_default)) (fun v11 => 
    chk 836 (Ok (has_value v11)) (
    chk 837 (let! v12 := deref v11 in Ok (ClType_beq (cl_tp v12) Cl_NO_CLOUDS)) (
    chk 838 (let! v13 := deref v11 in Ok (ClAmount_beq (cl_amnt v13) Am_NONE_SKC)) (
    chk 839 (let! v14 := deref v11 in Ok (negb (Distance_isReported (CloudGroup_height v14)))) (
    chk 840 (let! v15 := deref v11 in Ok (ClConv_beq (cl_conv v15) Cv_NONE)) (
    chk 841 (let! v16 := deref v11 in Ok (negb (Distance_isReported (CloudGroup_verticalVisibility v16)))) (
    chk 842 (let! v17 := deref v11 in Ok (negb (Distance_isReported (CloudGroup_minHeight v17)))) (
    chk 843 (let! v18 := deref v11 in Ok (negb (Distance_isReported (CloudGroup_maxHeight v18)))) (
    chk 844 (let! v19 := deref v11 in Ok (negb (has_value (cl_rw v19)))) (
    chk 845 (let! v20 := deref v11 in Ok (negb (has_value (cl_dir v20)))) (
    None)))))))))))))))))))))).

Definition t_CloudGroup_parseNcd : option N :=
    step 854 ((CloudGroup_parse "NCD" RP_METAR md_default)) (fun v1 => 
    chk 855 (Ok (has_value v1)) (
    chk 856 (let! v2 := deref v1 in Ok (ClType_beq (cl_tp v2) Cl_NO_CLOUDS)) (
    chk 857 (let! v3 := deref v1 in Ok (ClAmount_beq (cl_amnt v3) Am_NCD)) (
    chk 858 (let! v4 := deref v1 in Ok (negb (Distance_isReported (CloudGroup_height v4)))) (
    chk 859 (let! v5 := deref v1 in Ok (ClConv_beq (cl_conv v5) Cv_NONE)) (
    chk 860 (let! v6 := deref v1 in Ok (negb (Distance_isReported (CloudGroup_verticalVisibility v6)))) (
    chk 861 (let! v7 := deref v1 in Ok (negb (Distance_isReported (CloudGroup_minHeight v7)))) (
    chk 862 (let! v8 := deref v1 in Ok (negb (Distance_isReported (CloudGroup_maxHeight v8)))) (
    chk 863 (let! v9 := deref v1 in Ok (negb (has_value (cl_rw v9)))) (
    chk 864 (let! v10 := deref v1 in Ok (negb (has_value (cl_dir v10)))) (
    step 866 ((CloudGroup_parse "NCD" RP_TAF md_default)) (fun v11 => 
    chk 867 (Ok (has_value v11)) (
    chk 868 (let! v12 := deref v11 in Ok (ClType_beq (cl_tp v12) Cl_NO_CLOUDS)) (
    chk 869 (let! v13 := deref v11 in Ok (ClAmount_beq (cl_amnt v13) Am_NCD)) (
    chk 870 (let! v14 := deref v11 in Ok (negb (Distance_isReported (CloudGroup_height v14)))) (
    chk 871 (let! v15 := deref v11 in Ok (ClConv_beq (cl_conv v15) Cv_NONE)) (
    chk 872 (let! v16 := deref v11 in Ok (negb (Distance_isReported (CloudGroup_verticalVisibility v16)))) (
    chk 873 (let! v17 := deref v11 in Ok (negb (Distance_isReported (CloudGroup_minHeight v17)))) (
    chk 874 (let! v18 := deref v11 in Ok (negb (Distance_isReported (CloudGroup_maxHeight v18)))) (
    chk 875 (let! v19 := deref v11 in Ok (negb (has_value (cl_rw v19)))) (
    chk 876 (let! v20 := deref v11 in Ok (negb (has_value (cl_dir v20)))) (
    None)))))))))))))))))))))).

Definition t_CloudGroup_parseNsc : option N :=
    step 885 ((CloudGroup_parse "NSC" RP_METAR md_default)) (fun v1 => 
    chk 886 (Ok (has_value v1)) (
    chk 887 (let! v2 := deref v1 in Ok (ClType_beq (cl_tp v2) Cl_NO_CLOUDS)) (
    chk 888 (let! v3 := deref v1 in Ok (ClAmount_beq (cl_amnt v3) Am_NSC)) (
    chk 889 (let! v4 := deref v1 in Ok (negb (Distance_isReported (CloudGroup_height v4)))) (
    chk 890 (let! v5 := deref v1 in Ok (ClConv_beq (cl_conv v5) Cv_NONE)) (
    chk 891 (let! v6 := deref v1 in Ok (negb (Distance_isReported (CloudGroup_verticalVisibility v6)))) (
    chk 892 (let! v7 := deref v1 in Ok (negb (Distance_isReported (CloudGroup_minHeight v7)))) (
    chk 893 (let! v8 := deref v1 in Ok (negb (Distance_isReported (CloudGroup_maxHeight v8)))) (
    chk 894 (let! v9 := deref v1 in Ok (negb (has_value (cl_rw v9)))) (
    chk 895 (let! v10 := deref v1 in Ok (negb (has_value (cl_dir v10)))) (
    step 897 ((CloudGroup_parse "NSC" RP_TAF md_default)) (fun v11 => 
    chk 898 (Ok (has_value v11)) (
    chk 899 (let! v12 := deref v11 in Ok (ClType_beq (cl_tp v12) Cl_NO_CLOUDS)) (
    chk 900 (let! v13 := deref v11 in Ok (ClAmount_beq (cl_amnt v13) Am_NSC)) (
    chk 901 (let! v14 := deref v11 in Ok (negb (Distance_isReported (CloudGroup_height v14)))) (
    chk 902 (let! v15 := deref v11 in Ok (ClConv_beq (cl_conv v15) Cv_NONE)) (
    chk 903 (let! v16 := deref v11 in Ok (negb (Distance_isReported (CloudGroup_verticalVisibility v16)))) (
    chk 904 (let! v17 := deref v11 in Ok (negb (Distance_isReported (CloudGroup_minHeight v17)))) (
    chk 905 (let! v18 := deref v11 in Ok (negb (Distance_isReported (CloudGroup_maxHeight v18)))) (
    chk 906 (let! v19 := deref v11 in Ok (negb (has_value (cl_rw v19)))) (
    chk 907 (let! v20 := deref v11 in Ok (negb (has_value (cl_dir v20)))) (
    None)))))))))))))))))))))).

Definition t_CloudGroup_parseNoCloudWrongReportPart : option N :=
    chk 912 (let! v1 := (CloudGroup_parse "CLR" RP_UNKNOWN md_default) in Ok (negb (has_value v1))) (
    chk 913 (let! v2 := (CloudGroup_parse "CLR" RP_HEADER md_default) in Ok (negb (has_value v2))) (
    chk 914 (let! v3 := (CloudGroup_parse "CLR" RP_RMK md_default) in Ok (negb (has_value v3))) (
    chk 917 (let! v4 := (CloudGroup_parse "SKC" RP_UNKNOWN md_default) in Ok (negb (has_value v4))) (
    chk 918 (let! v5 := (CloudGroup_parse "SKC" RP_HEADER md_default) in Ok (negb (has_value v5))) (
    chk 919 (let! v6 := (CloudGroup_parse "SKC" RP_RMK md_default) in Ok (negb (has_value v6))) (
    chk 922 (let! v7 := (CloudGroup_parse "NCD" RP_UNKNOWN md_default) in Ok (negb (has_value v7))) (
    chk 923 (let! v8 := (CloudGroup_parse "NCD" RP_HEADER md_default) in Ok (negb (has_value v8))) (
    chk 924 (let! v9 := (CloudGroup_parse "NCD" RP_RMK md_default) in Ok (negb (has_value v9))) (
    chk 927 (let! v10 := (CloudGroup_parse "NSC" RP_UNKNOWN md_default) in Ok (negb (has_value v10))) (
    chk 928 (let! v11 := (CloudGroup_parse "NSC" RP_HEADER md_default) in Ok (negb (has_value v11))) (
    chk 929 (let! v12 := (CloudGroup_parse "NSC" RP_RMK md_default) in Ok (negb (has_value v12))) (
    None)))))))))))).

Definition t_CloudGroup_parseCeilingNoDetails : option N :=
    step 940 ((CloudGroup_parse "CIG" RP_RMK md_default)) (fun v1 => 
    chk 941 (Ok (has_value v1)) (
    step 942 (let! v2 := deref v1 in CloudGroup_append v2 "025" RP_RMK md_default) (fun p => let v3 := Some (fst p) in let v4 := snd p in 
    chk 942 (Ok (AppendResult_beq v4 APPENDED)) (
    step 943 (let! v5 := deref v3 in CloudGroup_append v5 "" RP_RMK md_default) (fun p => let v6 := Some (fst p) in let v7 := snd p in 
    chk 943 (Ok (AppendResult_beq v7 NOT_APPENDED)) (
    chk 945 (let! v8 := deref v6 in Ok (ClType_beq (cl_tp v8) Cl_CEILING)) (
    chk 946 (let! v9 := deref v6 in Ok (ClAmount_beq (cl_amnt v9) Am_NOT_REPORTED)) (
    chk 947 (let! v10 := deref v6 in Ok (Distance_isReported (CloudGroup_height v10))) (
    chk 948 (let! v11 := deref v6 in let! v12 := deref (Distance_distance (CloudGroup_height v11)) in Ok (near v12 (dlit (2500) 1) (dlit (1) 2))) (
    chk 949 (let! v13 := deref v6 in Ok (DistUnit_beq (distUnit (CloudGroup_height v13)) FEET)) (
    chk 950 (let! v14 := deref v6 in Ok (ClConv_beq (cl_conv v14) Cv_NONE)) (
    chk 952 (let! v15 := deref v6 in Ok (negb (Distance_isReported (CloudGroup_verticalVisibility v15)))) (
    chk 953 (let! v16 := deref v6 in Ok (negb (Distance_isReported (CloudGroup_minHeight v16)))) (
    chk 954 (let! v17 := deref v6 in Ok (negb (Distance_isReported (CloudGroup_maxHeight v17)))) (
    chk 955 (let! v18 := deref v6 in Ok (negb (has_value (cl_rw v18)))) (
    chk 956 (let! v19 := deref v6 in Ok (negb (has_value (cl_dir v19)))) (
    None))))))))))))))))).

Definition t_CloudGroup_parseCeilingDirection : option N :=
    step 960 ((CloudGroup_parse "CIG" RP_RMK md_default)) (fun v1 => 
    chk 961 (Ok (has_value v1)) (
    step 962 (let! v2 := deref v1 in CloudGroup_append v2 "025" RP_RMK md_default) (fun p => let v3 := Some (fst p) in let v4 := snd p in 
    chk 962 (Ok (AppendResult_beq v4 APPENDED)) (
    step 963 (let! v5 := deref v3 in CloudGroup_append v5 "NE" RP_RMK md_default) (fun p => let v6 := Some (fst p) in let v7 := snd p in 
    chk 963 (Ok (AppendResult_beq v7 APPENDED)) (
    chk 965 (let! v8 := deref v6 in Ok (ClType_beq (cl_tp v8) Cl_CEILING)) (
    chk 966 (let! v9 := deref v6 in Ok (ClAmount_beq (cl_amnt v9) Am_NOT_REPORTED)) (
    chk 967 (let! v10 := deref v6 in Ok (Distance_isReported (CloudGroup_height v10))) (
    chk 968 (let! v11 := deref v6 in let! v12 := deref (Distance_distance (CloudGroup_height v11)) in Ok (near v12 (dlit (2500) 1) (dlit (1) 2))) (
    chk 969 (let! v13 := deref v6 in Ok (DistUnit_beq (distUnit (CloudGroup_height v13)) FEET)) (
    chk 970 (let! v14 := deref v6 in Ok (ClConv_beq (cl_conv v14) Cv_NONE)) (
    chk 972 (let! v15 := deref v6 in Ok (negb (Distance_isReported (CloudGroup_verticalVisibility v15)))) (
    chk 973 (let! v16 := deref v6 in Ok (negb (Distance_isReported (CloudGroup_minHeight v16)))) (
    chk 974 (let! v17 := deref v6 in Ok (negb (Distance_isReported (CloudGroup_maxHeight v17)))) (
    chk 975 (let! v18 := deref v6 in Ok (negb (has_value (cl_rw v18)))) (
    chk 976 (let! v19 := deref v6 in Ok (has_value (cl_dir v19))) (
    chk 977 (let! v20 := deref v6 in let! v21 := deref (cl_dir v20) in Ok (DirType_beq (dirType v21) DT_VALUE_CARDINAL)) (
    chk 978 (let! v22 := deref v6 in let! v23 := deref (cl_dir v22) in Ok (Cardinal_beq (Direction_cardinal v23 false) Cd_NE)) (
    None))))))))))))))))))).

Definition t_CloudGroup_parseCeilingRunway : option N :=
    step 982 ((CloudGroup_parse "CIG" RP_RMK md_default)) (fun v1 => 
    chk 983 (Ok (has_value v1)) (
    step 984 (let! v2 := deref v1 in CloudGroup_append v2 "025" RP_RMK md_default) (fun p => let v3 := Some (fst p) in let v4 := snd p in 
    chk 984 (Ok (AppendResult_beq v4 APPENDED)) (
    step 985 (let! v5 := deref v3 in CloudGroup_append v5 "R18" RP_RMK md_default) (fun p => let v6 := Some (fst p) in let v7 := snd p in 
    chk 985 (Ok (AppendResult_beq v7 APPENDED)) (
    chk 987 (let! v8 := deref v6 in Ok (ClType_beq (cl_tp v8) Cl_CEILING)) (
    chk 988 (let! v9 := deref v6 in Ok (ClAmount_beq (cl_amnt v9) Am_NOT_REPORTED)) (
    chk 989 (let! v10 := deref v6 in Ok (Distance_isReported (CloudGroup_height v10))) (
    chk 990 (let! v11 := deref v6 in let! v12 := deref (Distance_distance (CloudGroup_height v11)) in Ok (near v12 (dlit (2500) 1) (dlit (1) 2))) (
    chk 991 (let! v13 := deref v6 in Ok (DistUnit_beq (distUnit (CloudGroup_height v13)) FEET)) (
    chk 992 (let! v14 := deref v6 in Ok (ClConv_beq (cl_conv v14) Cv_NONE)) (
    chk 994 (let! v15 := deref v6 in Ok (negb (Distance_isReported (CloudGroup_verticalVisibility v15)))) (
    chk 995 (let! v16 := deref v6 in Ok (negb (Distance_isReported (CloudGroup_minHeight v16)))) (
    chk 996 (let! v17 := deref v6 in Ok (negb (Distance_isReported (CloudGroup_maxHeight v17)))) (
    chk 997 (let! v18 := deref v6 in Ok (has_value (cl_rw v18))) (
    chk 998 (let! v19 := deref v6 in let! v20 := deref (cl_rw v19) in Ok (N.eqb (rNumber v20) 18%N)) (
    chk 999 (let! v21 := deref v6 in let! v22 := deref (cl_rw v21) in Ok (RwDesignator_beq (rDesignator v22) Rw_NONE)) (
    chk 1000 (let! v23 := deref v6 in Ok (negb (has_value (cl_dir v23)))) (
    step 1003 ((CloudGroup_parse "CIG" RP_RMK md_default)) (fun v24 => 
    chk 1004 (Ok (has_value v24)) (
    step 1005 (let! v25 := deref v24 in CloudGroup_append v25 "017" RP_RMK md_default) (fun p => let v26 := Some (fst p) in let v27 := snd p in 
    chk 1005 (Ok (AppendResult_beq v27 APPENDED)) (
    step 1006 (let! v28 := deref v26 in CloudGroup_append v28 "RWY24L" RP_RMK md_default) (fun p => let v29 := Some (fst p) in let v30 := snd p in 
    chk 1006 (Ok (AppendResult_beq v30 APPENDED)) (
    chk 1008 (let! v31 := deref v29 in Ok (ClType_beq (cl_tp v31) Cl_CEILING)) (
    chk 1009 (let! v32 := deref v29 in Ok (ClAmount_beq (cl_amnt v32) Am_NOT_REPORTED)) (
    chk 1010 (let! v33 := deref v29 in Ok (Distance_isReported (CloudGroup_height v33))) (
    chk 1011 (let! v34 := deref v29 in let! v35 := deref (Distance_distance (CloudGroup_height v34)) in Ok (near v35 (dlit (1700) 1) (dlit (1) 2))) (
    chk 1012 (let! v36 := deref v29 in Ok (DistUnit_beq (distUnit (CloudGroup_height v36)) FEET)) (
    chk 1013 (let! v37 := deref v29 in Ok (ClConv_beq (cl_conv v37) Cv_NONE)) (
    chk 1015 (let! v38 := deref v29 in Ok (negb (Distance_isReported (CloudGroup_verticalVisibility v38)))) (
    chk 1016 (let! v39 := deref v29 in Ok (negb (Distance_isReported (CloudGroup_minHeight v39)))) (
    chk 1017 (let! v40 := deref v29 in Ok (negb (Distance_isReported (CloudGroup_maxHeight v40)))) (
    chk 1018 (let! v41 := deref v29 in Ok (has_value (cl_rw v41))) (
    chk 1019 (let! v42 := deref v29 in let! v43 := deref (cl_rw v42) in Ok (N.eqb (rNumber v43) 24%N)) (
    chk 1020 (let! v44 := deref v29 in let! v45 := deref (cl_rw v44) in Ok (RwDesignator_beq (rDesignator v45) Rw_LEFT)) (
    chk 1021 (let! v46 := deref v29 in Ok (negb (has_value (cl_dir v46)))) (
    None)))))))))))))))))))))))))))))))))))))).

Definition t_CloudGroup_parseVariableCeilingNoDetails : option N :=
    step 1025 ((CloudGroup_parse "CIG" RP_RMK md_default)) (fun v1 => 
    chk 1026 (Ok (has_value v1)) (
    step 1027 (let! v2 := deref v1 in CloudGroup_append v2 "008V014" RP_RMK md_default) (fun p => let v3 := Some (fst p) in let v4 := snd p in 
    chk 1027 (Ok (AppendResult_beq v4 APPENDED)) (
    step 1028 (let! v5 := deref v3 in CloudGroup_append v5 "" RP_RMK md_default) (fun p => let v6 := Some (fst p) in let v7 := snd p in 
    chk 1028 (Ok (AppendResult_beq v7 NOT_APPENDED)) (
    chk 1030 (let! v8 := deref v6 in Ok (ClType_beq (cl_tp v8) Cl_VARIABLE_CEILING)) (
    chk 1031 (let! v9 := deref v6 in Ok (ClAmount_beq (cl_amnt v9) Am_NOT_REPORTED)) (
    chk 1032 (let! v10 := deref v6 in Ok (negb (Distance_isReported (CloudGroup_height v10)))) (
    chk 1033 (let! v11 := deref v6 in Ok (ClConv_beq (cl_conv v11) Cv_NONE)) (
    chk 1034 (let! v12 := deref v6 in Ok (negb (Distance_isReported (CloudGroup_verticalVisibility v12)))) (
    chk 1035 (let! v13 := deref v6 in Ok (Distance_isReported (CloudGroup_minHeight v13))) (
    chk 1036 (let! v14 := deref v6 in let! v15 := deref (Distance_distance (CloudGroup_minHeight v14)) in Ok (near v15 (dlit (800) 1) (dlit (1) 2))) (
    chk 1037 (let! v16 := deref v6 in Ok (DistUnit_beq (distUnit (CloudGroup_minHeight v16)) FEET)) (
    chk 1038 (let! v17 := deref v6 in Ok (DistModifier_beq (distModifier (CloudGroup_minHeight v17)) DM_NONE)) (
    chk 1039 (let! v18 := deref v6 in Ok (Distance_isReported (CloudGroup_maxHeight v18))) (
    chk 1040 (let! v19 := deref v6 in let! v20 := deref (Distance_distance (CloudGroup_maxHeight v19)) in Ok (near v20 (dlit (1400) 1) (dlit (1) 2))) (
    chk 1041 (let! v21 := deref v6 in Ok (DistUnit_beq (distUnit (CloudGroup_maxHeight v21)) FEET)) (
    chk 1042 (let! v22 := deref v6 in Ok (DistModifier_beq (distModifier (CloudGroup_maxHeight v22)) DM_NONE)) (
    chk 1043 (let! v23 := deref v6 in Ok (negb (has_value (cl_rw v23)))) (
    chk 1044 (let! v24 := deref v6 in Ok (negb (has_value (cl_dir v24)))) (
    None))))))))))))))))))))).

Definition t_CloudGroup_parseVariableCeilingRunway : option N :=
    step 1048 ((CloudGroup_parse "CIG" RP_RMK md_default)) (fun v1 => 
    chk 1049 (Ok (has_value v1)) (
    step 1050 (let! v2 := deref v1 in CloudGroup_append v2 "008V014" RP_RMK md_default) (fun p => let v3 := Some (fst p) in let v4 := snd p in 
    chk 1050 (Ok (AppendResult_beq v4 APPENDED)) (
    step 1051 (let! v5 := deref v3 in CloudGroup_append v5 "R18" RP_RMK md_default) (fun p => let v6 := Some (fst p) in let v7 := snd p in 
    chk 1051 (Ok (AppendResult_beq v7 APPENDED)) (
    chk 1053 (let! v8 := deref v6 in Ok (ClType_beq (cl_tp v8) Cl_VARIABLE_CEILING)) (
    chk 1054 (let! v9 := deref v6 in Ok (ClAmount_beq (cl_amnt v9) Am_NOT_REPORTED)) (
    chk 1055 (let! v10 := deref v6 in Ok (negb (Distance_isReported (CloudGroup_height v10)))) (
    chk 1056 (let! v11 := deref v6 in Ok (ClConv_beq (cl_conv v11) Cv_NONE)) (
    chk 1057 (let! v12 := deref v6 in Ok (negb (Distance_isReported (CloudGroup_verticalVisibility v12)))) (
    chk 1058 (let! v13 := deref v6 in Ok (Distance_isReported (CloudGroup_minHeight v13))) (
    chk 1059 (let! v14 := deref v6 in let! v15 := deref (Distance_distance (CloudGroup_minHeight v14)) in Ok (near v15 (dlit (800) 1) (dlit (1) 2))) (
    chk 1060 (let! v16 := deref v6 in Ok (DistUnit_beq (distUnit (CloudGroup_minHeight v16)) FEET)) (
    chk 1061 (let! v17 := deref v6 in Ok (DistModifier_beq (distModifier (CloudGroup_minHeight v17)) DM_NONE)) (
    chk 1062 (let! v18 := deref v6 in Ok (Distance_isReported (CloudGroup_maxHeight v18))) (
    chk 1063 (let! v19 := deref v6 in let! v20 := deref (Distance_distance (CloudGroup_maxHeight v19)) in Ok (near v20 (dlit (1400) 1) (dlit (1) 2))) (
    chk 1064 (let! v21 := deref v6 in Ok (DistUnit_beq (distUnit (CloudGroup_maxHeight v21)) FEET)) (
    chk 1065 (let! v22 := deref v6 in Ok (DistModifier_beq (distModifier (CloudGroup_maxHeight v22)) DM_NONE)) (
    chk 1066 (let! v23 := deref v6 in Ok (has_value (cl_rw v23))) (
    chk 1067 (let! v24 := deref v6 in let! v25 := deref (cl_rw v24) in Ok (N.eqb (rNumber v25) 18%N)) (
    chk 1068 (let! v26 := deref v6 in let! v27 := deref (cl_rw v26) in Ok (RwDesignator_beq (rDesignator v27) Rw_NONE)) (
    chk 1069 (let! v28 := deref v6 in Ok (negb (has_value (cl_dir v28)))) (
    step 1071 ((CloudGroup_parse "CIG" RP_RMK md_default)) (fun v29 => 
    chk 1072 (Ok (has_value v29)) (
    step 1073 (let! v30 := deref v29 in CloudGroup_append v30 "002V006" RP_RMK md_default) (fun p => let v31 := Some (fst p) in let v32 := snd p in 
    chk 1073 (Ok (AppendResult_beq v32 APPENDED)) (
    step 1074 (let! v33 := deref v31 in CloudGroup_append v33 "RWY24R" RP_RMK md_default) (fun p => let v34 := Some (fst p) in let v35 := snd p in 
    chk 1074 (Ok (AppendResult_beq v35 APPENDED)) (
    chk 1076 (let! v36 := deref v34 in Ok (ClType_beq (cl_tp v36) Cl_VARIABLE_CEILING)) (
    chk 1077 (let! v37 := deref v34 in Ok (ClAmount_beq (cl_amnt v37) Am_NOT_REPORTED)) (
    chk 1078 (let! v38 := deref v34 in Ok (negb (Distance_isReported (CloudGroup_height v38)))) (
    chk 1079 (let! v39 := deref v34 in Ok (ClConv_beq (cl_conv v39) Cv_NONE)) (
    chk 1080 (let! v40 := deref v34 in Ok (negb (Distance_isReported (CloudGroup_verticalVisibility v40)))) (
    chk 1081 (let! v41 := deref v34 in Ok (Distance_isReported (CloudGroup_minHeight v41))) (
    chk 1082 (let! v42 := deref v34 in let! v43 := deref (Distance_distance (CloudGroup_minHeight v42)) in Ok (near v43 (dlit (200) 1) (dlit (1) 2))) (
    chk 1083 (let! v44 := deref v34 in Ok (DistUnit_beq (distUnit (CloudGroup_minHeight v44)) FEET)) (
    chk 1084 (let! v45 := deref v34 in Ok (DistModifier_beq (distModifier (CloudGroup_minHeight v45)) DM_NONE)) (
    chk 1085 (let! v46 := deref v34 in Ok (Distance_isReported (CloudGroup_maxHeight v46))) (
    chk 1086 (let! v47 := deref v34 in let! v48 := deref (Distance_distance (CloudGroup_maxHeight v47)) in Ok (near v48 (dlit (600) 1) (dlit (1) 2))) (
    chk 1087 (let! v49 := deref v34 in Ok (DistUnit_beq (distUnit (CloudGroup_maxHeight v49)) FEET)) (
    chk 1088 (let! v50 := deref v34 in Ok (DistModifier_beq (distModifier (CloudGroup_maxHeight v50)) DM_NONE)) (
    chk 1089 (let! v51 := deref v34 in Ok (has_value (cl_rw v51))) (
    chk 1090 (let! v52 := deref v34 in let! v53 := deref (cl_rw v52) in Ok (N.eqb (rNumber v53) 24%N)) (
    chk 1091 (let! v54 := deref v34 in let! v55 := deref (cl_rw v54) in Ok (RwDesignator_beq (rDesignator v55) Rw_RIGHT)) (
    chk 1092 (let! v56 := deref v34 in Ok (negb (has_value (cl_dir v56)))) (
    None)))))))))))))))))))))))))))))))))))))))))))))).

Definition t_CloudGroup_parseVariableCeilingDirection : option N :=
    step 1096 ((CloudGroup_parse "CIG" RP_RMK md_default)) (fun v1 => 
    chk 1097 (Ok (has_value v1)) (
    step 1098 (let! v2 := deref v1 in CloudGroup_append v2 "008V014" RP_RMK md_default) (fun p => let v3 := Some (fst p) in let v4 := snd p in 
    chk 1098 (Ok (AppendResult_beq v4 APPENDED)) (
    step 1099 (let! v5 := deref v3 in CloudGroup_append v5 "NE" RP_RMK md_default) (fun p => let v6 := Some (fst p) in let v7 := snd p in 
    chk 1099 (Ok (AppendResult_beq v7 APPENDED)) (
    step 1100 (let! v8 := deref v6 in CloudGroup_append v8 "" RP_RMK md_default) (fun p => let v9 := Some (fst p) in let v10 := snd p in 
    chk 1100 (Ok (AppendResult_beq v10 NOT_APPENDED)) (
    chk 1102 (let! v11 := deref v9 in Ok (ClType_beq (cl_tp v11) Cl_VARIABLE_CEILING)) (
    chk 1103 (let! v12 := deref v9 in Ok (ClAmount_beq (cl_amnt v12) Am_NOT_REPORTED)) (
    chk 1104 (let! v13 := deref v9 in Ok (negb (Distance_isReported (CloudGroup_height v13)))) (
    chk 1105 (let! v14 := deref v9 in Ok (ClConv_beq (cl_conv v14) Cv_NONE)) (
    chk 1106 (let! v15 := deref v9 in Ok (negb (Distance_isReported (CloudGroup_verticalVisibility v15)))) (
    chk 1107 (let! v16 := deref v9 in Ok (Distance_isReported (CloudGroup_minHeight v16))) (
    chk 1108 (let! v17 := deref v9 in let! v18 := deref (Distance_distance (CloudGroup_minHeight v17)) in Ok (near v18 (dlit (800) 1) (dlit (1) 2))) (
    chk 1109 (let! v19 := deref v9 in Ok (DistUnit_beq (distUnit (CloudGroup_minHeight v19)) FEET)) (
    chk 1110 (let! v20 := deref v9 in Ok (DistModifier_beq (distModifier (CloudGroup_minHeight v20)) DM_NONE)) (
    chk 1111 (let! v21 := deref v9 in Ok (Distance_isReported (CloudGroup_maxHeight v21))) (
    chk 1112 (let! v22 := deref v9 in let! v23 := deref (Distance_distance (CloudGroup_maxHeight v22)) in Ok (near v23 (dlit (1400) 1) (dlit (1) 2))) (
    chk 1113 (let! v24 := deref v9 in Ok (DistUnit_beq (distUnit (CloudGroup_maxHeight v24)) FEET)) (
    chk 1114 (let! v25 := deref v9 in Ok (DistModifier_beq (distModifier (CloudGroup_maxHeight v25)) DM_NONE)) (
    chk 1115 (let! v26 := deref v9 in Ok (negb (has_value (cl_rw v26)))) (
    chk 1116 (let! v27 := deref v9 in Ok (has_value (cl_dir v27))) (
    chk 1117 (let! v28 := deref v9 in let! v29 := deref (cl_dir v28) in Ok (DirType_beq (dirType v29) DT_VALUE_CARDINAL)) (
    chk 1118 (let! v30 := deref v9 in let! v31 := deref (cl_dir v30) in Ok (Cardinal_beq (Direction_cardinal v31 false) Cd_NE)) (
    None))))))))))))))))))))))))).

Definition t_CloudGroup_ceilingAppendWrongGroupCig : option N :=
    step 1123 ((CloudGroup_parse "CIG" RP_RMK md_default)) (fun v1 => 
    chk 1124 (Ok (has_value v1)) (
    step 1125 (let! v2 := deref v1 in CloudGroup_append v2 "R22" RP_RMK md_default) (fun p => let v3 := Some (fst p) in let v4 := snd p in 
    chk 1125 (Ok (AppendResult_beq v4 GROUP_INVALIDATED)) (
    step 1127 ((CloudGroup_parse "CIG" RP_RMK md_default)) (fun v5 => 
    chk 1128 (Ok (has_value v5)) (
    step 1129 (let! v6 := deref v5 in CloudGroup_append v6 "///" RP_RMK md_default) (fun p => let v7 := Some (fst p) in let v8 := snd p in 
    chk 1129 (Ok (AppendResult_beq v8 GROUP_INVALIDATED)) (
    step 1131 ((CloudGroup_parse "CIG" RP_RMK md_default)) (fun v9 => 
    chk 1132 (Ok (has_value v9)) (
    step 1133 (let! v10 := deref v9 in CloudGroup_append v10 "///V///" RP_RMK md_default) (fun p => let v11 := Some (fst p) in let v12 := snd p in 
    chk 1133 (Ok (AppendResult_beq v12 GROUP_INVALIDATED)) (
    None)))))))))))).

Definition t_CloudGroup_ceilingAppendWrongGroupCigValue : option N :=
    step 1137 ((CloudGroup_parse "CIG" RP_RMK md_default)) (fun v1 => 
    chk 1138 (Ok (has_value v1)) (
    step 1139 (let! v2 := deref v1 in CloudGroup_append v2 "002" RP_RMK md_default) (fun p => let v3 := Some (fst p) in let v4 := snd p in 
    chk 1139 (Ok (AppendResult_beq v4 APPENDED)) (
    step 1140 (let! v5 := deref v3 in CloudGroup_append v5 "004" RP_RMK md_default) (fun p => let v6 := Some (fst p) in let v7 := snd p in 
    chk 1140 (Ok (AppendResult_beq v7 NOT_APPENDED)) (
    step 1142 ((CloudGroup_parse "CIG" RP_RMK md_default)) (fun v8 => 
    chk 1143 (Ok (has_value v8)) (
    step 1144 (let! v9 := deref v8 in CloudGroup_append v9 "002" RP_RMK md_default) (fun p => let v10 := Some (fst p) in let v11 := snd p in 
    chk 1144 (Ok (AppendResult_beq v11 APPENDED)) (
    step 1145 (let! v12 := deref v10 in CloudGroup_append v12 "X32" RP_RMK md_default) (fun p => let v13 := Some (fst p) in let v14 := snd p in 
    chk 1145 (Ok (AppendResult_beq v14 NOT_APPENDED)) (
    step 1147 ((CloudGroup_parse "CIG" RP_RMK md_default)) (fun v15 => 
    chk 1148 (Ok (has_value v15)) (
    step 1149 (let! v16 := deref v15 in CloudGroup_append v16 "002" RP_RMK md_default) (fun p => let v17 := Some (fst p) in let v18 := snd p in 
    chk 1149 (Ok (AppendResult_beq v18 APPENDED)) (
    step 1150 (let! v19 := deref v17 in CloudGroup_append v19 "ALL" RP_RMK md_default) (fun p => let v20 := Some (fst p) in let v21 := snd p in 
    chk 1150 (Ok (AppendResult_beq v21 NOT_APPENDED)) (
    step 1152 ((CloudGroup_parse "CIG" RP_RMK md_default)) (fun v22 => 
    chk 1153 (Ok (has_value v22)) (
    step 1154 (let! v23 := deref v22 in CloudGroup_append v23 "002" RP_RMK md_default) (fun p => let v24 := Some (fst p) in let v25 := snd p in 
    chk 1154 (Ok (AppendResult_beq v25 APPENDED)) (
    step 1155 (let! v26 := deref v24 in CloudGroup_append v26 "RWY" RP_RMK md_default) (fun p => let v27 := Some (fst p) in let v28 := snd p in 
    chk 1155 (Ok (AppendResult_beq v28 NOT_APPENDED)) (
    None)))))))))))))))))))))))).

Definition t_CloudGroup_ceilingAppendWrongGroupCigVariable : option N :=
    step 1159 ((CloudGroup_parse "CIG" RP_RMK md_default)) (fun v1 => 
    chk 1160 (Ok (has_value v1)) (
    step 1161 (let! v2 := deref v1 in CloudGroup_append v2 "014V016" RP_RMK md_default) (fun p => let v3 := Some (fst p) in let v4 := snd p in 
    chk 1161 (Ok (AppendResult_beq v4 APPENDED)) (
    step 1162 (let! v5 := deref v3 in CloudGroup_append v5 "004" RP_RMK md_default) (fun p => let v6 := Some (fst p) in let v7 := snd p in 
    chk 1162 (Ok (AppendResult_beq v7 NOT_APPENDED)) (
    step 1164 ((CloudGroup_parse "CIG" RP_RMK md_default)) (fun v8 => 
    chk 1165 (Ok (has_value v8)) (
    step 1166 (let! v9 := deref v8 in CloudGroup_append v9 "014V016" RP_RMK md_default) (fun p => let v10 := Some (fst p) in let v11 := snd p in 
    chk 1166 (Ok (AppendResult_beq v11 APPENDED)) (
    step 1167 (let! v12 := deref v10 in CloudGroup_append v12 "X32" RP_RMK md_default) (fun p => let v13 := Some (fst p) in let v14 := snd p in 
    chk 1167 (Ok (AppendResult_beq v14 NOT_APPENDED)) (
    step 1169 ((CloudGroup_parse "CIG" RP_RMK md_default)) (fun v15 => 
    chk 1170 (Ok (has_value v15)) (
    step 1171 (let! v16 := deref v15 in CloudGroup_append v16 "014V016" RP_RMK md_default) (fun p => let v17 := Some (fst p) in let v18 := snd p in 
    chk 1171 (Ok (AppendResult_beq v18 APPENDED)) (
    step 1172 (let! v19 := deref v17 in CloudGroup_append v19 "ALL" RP_RMK md_default) (fun p => let v20 := Some (fst p) in let v21 := snd p in 
    chk 1172 (Ok (AppendResult_beq v21 NOT_APPENDED)) (
    step 1174 ((CloudGroup_parse "CIG" RP_RMK md_default)) (fun v22 => 
    chk 1175 (Ok (has_value v22)) (
    step 1176 (let! v23 := deref v22 in CloudGroup_append v23 "014V016" RP_RMK md_default) (fun p => let v24 := Some (fst p) in let v25 := snd p in 
    chk 1176 (Ok (AppendResult_beq v25 APPENDED)) (
    step 1177 (let! v26 := deref v24 in CloudGroup_append v26 "RWY" RP_RMK md_default) (fun p => let v27 := Some (fst p) in let v28 := snd p in 
    chk 1177 (Ok (AppendResult_beq v28 NOT_APPENDED)) (
    None)))))))))))))))))))))))).

Definition t_CloudGroup_ceilingAppendToCompleteGroups : option N :=
    step 1181 ((CloudGroup_parse "CIG" RP_RMK md_default)) (fun v1 => 
    chk 1182 (Ok (has_value v1)) (
    step 1183 (let! v2 := deref v1 in CloudGroup_append v2 "002" RP_RMK md_default) (fun p => let v3 := Some (fst p) in let v4 := snd p in 
    chk 1183 (Ok (AppendResult_beq v4 APPENDED)) (
    step 1184 (let! v5 := deref v3 in CloudGroup_append v5 "RWY32" RP_RMK md_default) (fun p => let v6 := Some (fst p) in let v7 := snd p in 
    chk 1184 (Ok (AppendResult_beq v7 APPENDED)) (
    step 1185 (let! v8 := deref v6 in CloudGroup_append v8 "RWY12" RP_RMK md_default) (fun p => let v9 := Some (fst p) in let v10 := snd p in 
    chk 1185 (Ok (AppendResult_beq v10 NOT_APPENDED)) (
    step 1186 (let! v11 := deref v9 in CloudGroup_append v11 "002" RP_RMK md_default) (fun p => let v12 := Some (fst p) in let v13 := snd p in 
    chk 1186 (Ok (AppendResult_beq v13 NOT_APPENDED)) (
    step 1187 (let! v14 := deref v12 in CloudGroup_append v14 "014V016" RP_RMK md_default) (fun p => let v15 := Some (fst p) in let v16 := snd p in 
    chk 1187 (Ok (AppendResult_beq v16 NOT_APPENDED)) (
    step 1188 (let! v17 := deref v15 in CloudGroup_append v17 "ALL" RP_RMK md_default) (fun p => let v18 := Some (fst p) in let v19 := snd p in 
    chk 1188 (Ok (AppendResult_beq v19 NOT_APPENDED)) (
    step 1189 (let! v20 := deref v18 in CloudGroup_append v20 "RWY" RP_RMK md_default) (fun p => let v21 := Some (fst p) in let v22 := snd p in 
    chk 1189 (Ok (AppendResult_beq v22 NOT_APPENDED)) (
    step 1191 ((CloudGroup_parse "CIG" RP_RMK md_default)) (fun v23 => 
    chk 1192 (Ok (has_value v23)) (
    step 1193 (let! v24 := deref v23 in CloudGroup_append v24 "014V016" RP_RMK md_default) (fun p => let v25 := Some (fst p) in let v26 := snd p in 
    chk 1193 (Ok (AppendResult_beq v26 APPENDED)) (
    step 1194 (let! v27 := deref v25 in CloudGroup_append v27 "RWY32" RP_RMK md_default) (fun p => let v28 := Some (fst p) in let v29 := snd p in 
    chk 1194 (Ok (AppendResult_beq v29 APPENDED)) (
    step 1195 (let! v30 := deref v28 in CloudGroup_append v30 "RWY12" RP_RMK md_default) (fun p => let v31 := Some (fst p) in let v32 := snd p in 
    chk 1195 (Ok (AppendResult_beq v32 NOT_APPENDED)) (
    step 1196 (let! v33 := deref v31 in CloudGroup_append v33 "002" RP_RMK md_default) (fun p => let v34 := Some (fst p) in let v35 := snd p in 
    chk 1196 (Ok (AppendResult_beq v35 NOT_APPENDED)) (
    step 1197 (let! v36 := deref v34 in CloudGroup_append v36 "014V016" RP_RMK md_default) (fun p => let v37 := Some (fst p) in let v38 := snd p in 
    chk 1197 (Ok (AppendResult_beq v38 NOT_APPENDED)) (
    step 1198 (let! v39 := deref v37 in CloudGroup_append v39 "ALL" RP_RMK md_default) (fun p => let v40 := Some (fst p) in let v41 := snd p in 
    chk 1198 (Ok (AppendResult_beq v41 NOT_APPENDED)) (
    step 1199 (let! v42 := deref v40 in CloudGroup_append v42 "RWY" RP_RMK md_default) (fun p => let v43 := Some (fst p) in let v44 := snd p in 
    chk 1199 (Ok (AppendResult_beq v44 NOT_APPENDED)) (
    None)))))))))))))))))))))))))))))))).

Definition t_CloudGroup_parseCeilingWrongReportPart : option N :=
    chk 1203 (let! v1 := (CloudGroup_parse "CIG" RP_UNKNOWN md_default) in Ok (negb (has_value v1))) (
    chk 1204 (let! v2 := (CloudGroup_parse "CIG" RP_HEADER md_default) in Ok (negb (has_value v2))) (
    chk 1205 (let! v3 := (CloudGroup_parse "CIG" RP_METAR md_default) in Ok (negb (has_value v3))) (
    chk 1206 (let! v4 := (CloudGroup_parse "CIG" RP_TAF md_default) in Ok (negb (has_value v4))) (
    None)))).

Definition t_CloudGroup_parseChinoNoDetails : option N :=
    step 1216 ((CloudGroup_parse "CHINO" RP_RMK md_default)) (fun v1 => 
    chk 1217 (Ok (has_value v1)) (
    step 1218 (let! v2 := deref v1 in CloudGroup_append v2 "" RP_RMK md_default) (fun p => let v3 := Some (fst p) in let v4 := snd p in 
    chk 1218 (Ok (AppendResult_beq v4 NOT_APPENDED)) (
    chk 1220 (let! v5 := deref v3 in Ok (ClType_beq (cl_tp v5) Cl_CHINO)) (
    chk 1221 (let! v6 := deref v3 in Ok (ClAmount_beq (cl_amnt v6) Am_NOT_REPORTED)) (
    chk 1222 (let! v7 := deref v3 in Ok (negb (Distance_isReported (CloudGroup_height v7)))) (
    chk 1223 (let! v8 := deref v3 in Ok (ClConv_beq (cl_conv v8) Cv_NONE)) (
    chk 1224 (let! v9 := deref v3 in Ok (negb (Distance_isReported (CloudGroup_verticalVisibility v9)))) (
    chk 1225 (let! v10 := deref v3 in Ok (negb (Distance_isReported (CloudGroup_minHeight v10)))) (
    chk 1226 (let! v11 := deref v3 in Ok (negb (Distance_isReported (CloudGroup_maxHeight v11)))) (
    chk 1227 (let! v12 := deref v3 in Ok (negb (has_value (cl_rw v12)))) (
    chk 1228 (let! v13 := deref v3 in Ok (negb (has_value (cl_dir v13)))) (
    None))))))))))))).

Definition t_CloudGroup_parseChinoRunway : option N :=
    step 1232 ((CloudGroup_parse "CHINO" RP_RMK md_default)) (fun v1 => 
    chk 1233 (Ok (has_value v1)) (
    step 1234 (let! v2 := deref v1 in CloudGroup_append v2 "R18" RP_RMK md_default) (fun p => let v3 := Some (fst p) in let v4 := snd p in 
    chk 1234 (Ok (AppendResult_beq v4 APPENDED)) (
    chk 1236 (let! v5 := deref v3 in Ok (ClType_beq (cl_tp v5) Cl_CHINO)) (
    chk 1237 (let! v6 := deref v3 in Ok (ClAmount_beq (cl_amnt v6) Am_NOT_REPORTED)) (
    chk 1238 (let! v7 := deref v3 in Ok (negb (Distance_isReported (CloudGroup_height v7)))) (
    chk 1239 (let! v8 := deref v3 in Ok (ClConv_beq (cl_conv v8) Cv_NONE)) (
    chk 1240 (let! v9 := deref v3 in Ok (negb (Distance_isReported (CloudGroup_verticalVisibility v9)))) (
    chk 1241 (let! v10 := deref v3 in Ok (negb (Distance_isReported (CloudGroup_minHeight v10)))) (
    chk 1242 (let! v11 := deref v3 in Ok (negb (Distance_isReported (CloudGroup_maxHeight v11)))) (
    chk 1243 (let! v12 := deref v3 in Ok (has_value (cl_rw v12))) (
    chk 1244 (let! v13 := deref v3 in let! v14 := deref (cl_rw v13) in Ok (N.eqb (rNumber v14) 18%N)) (
    chk 1245 (let! v15 := deref v3 in let! v16 := deref (cl_rw v15) in Ok (RwDesignator_beq (rDesignator v16) Rw_NONE)) (
    chk 1246 (let! v17 := deref v3 in Ok (negb (has_value (cl_dir v17)))) (
    step 1248 ((CloudGroup_parse "CHINO" RP_RMK md_default)) (fun v18 => 
    chk 1249 (Ok (has_value v18)) (
    step 1250 (let! v19 := deref v18 in CloudGroup_append v19 "RWY24L" RP_RMK md_default) (fun p => let v20 := Some (fst p) in let v21 := snd p in 
    chk 1250 (Ok (AppendResult_beq v21 APPENDED)) (
    chk 1252 (let! v22 := deref v20 in Ok (ClType_beq (cl_tp v22) Cl_CHINO)) (
    chk 1253 (let! v23 := deref v20 in Ok (ClAmount_beq (cl_amnt v23) Am_NOT_REPORTED)) (
    chk 1254 (let! v24 := deref v20 in Ok (negb (Distance_isReported (CloudGroup_height v24)))) (
    chk 1255 (let! v25 := deref v20 in Ok (ClConv_beq (cl_conv v25) Cv_NONE)) (
    chk 1256 (let! v26 := deref v20 in Ok (negb (Distance_isReported (CloudGroup_verticalVisibility v26)))) (
    chk 1257 (let! v27 := deref v20 in Ok (negb (Distance_isReported (CloudGroup_minHeight v27)))) (
    chk 1258 (let! v28 := deref v20 in Ok (negb (Distance_isReported (CloudGroup_maxHeight v28)))) (
    chk 1259 (let! v29 := deref v20 in Ok (has_value (cl_rw v29))) (
    chk 1260 (let! v30 := deref v20 in let! v31 := deref (cl_rw v30) in Ok (N.eqb (rNumber v31) 24%N)) (
    chk 1261 (let! v32 := deref v20 in let! v33 := deref (cl_rw v32) in Ok (RwDesignator_beq (rDesignator v33) Rw_LEFT)) (
    chk 1262 (let! v34 := deref v20 in Ok (negb (has_value (cl_dir v34)))) (
    None)))))))))))))))))))))))))))))).

Definition t_CloudGroup_parseChinoDirection : option N :=
    step 1266 ((CloudGroup_parse "CHINO" RP_RMK md_default)) (fun v1 => 
    chk 1267 (Ok (has_value v1)) (
    chk 1268 (let! v2 := deref v1 in Ok (ClType_beq (cl_tp v2) Cl_CHINO)) (
    step 1269 (let! v3 := deref v1 in CloudGroup_append v3 "SW" RP_RMK md_default) (fun p => let v4 := Some (fst p) in let v5 := snd p in 
    chk 1269 (Ok (AppendResult_beq v5 APPENDED)) (
    chk 1271 (let! v6 := deref v4 in Ok (ClType_beq (cl_tp v6) Cl_CHINO)) (
    chk 1272 (let! v7 := deref v4 in Ok (ClAmount_beq (cl_amnt v7) Am_NOT_REPORTED)) (
    chk 1273 (let! v8 := deref v4 in Ok (negb (Distance_isReported (CloudGroup_height v8)))) (
    chk 1274 (let! v9 := deref v4 in Ok (ClConv_beq (cl_conv v9) Cv_NONE)) (
    chk 1275 (let! v10 := deref v4 in Ok (negb (Distance_isReported (CloudGroup_verticalVisibility v10)))) (
    chk 1276 (let! v11 := deref v4 in Ok (negb (Distance_isReported (CloudGroup_minHeight v11)))) (
    chk 1277 (let! v12 := deref v4 in Ok (negb (Distance_isReported (CloudGroup_maxHeight v12)))) (
    chk 1278 (let! v13 := deref v4 in Ok (negb (has_value (cl_rw v13)))) (
    chk 1279 (let! v14 := deref v4 in Ok (has_value (cl_dir v14))) (
    chk 1280 (let! v15 := deref v4 in let! v16 := deref (cl_dir v15) in Ok (DirType_beq (dirType v16) DT_VALUE_CARDINAL)) (
    chk 1281 (let! v17 := deref v4 in let! v18 := deref (cl_dir v17) in Ok (Cardinal_beq (Direction_cardinal v18 false) Cd_SW)) (
    None)))))))))))))))).

Definition t_CloudGroup_parseChinoWrongReportPart : option N :=
    chk 1285 (let! v1 := (CloudGroup_parse "CHINO" RP_UNKNOWN md_default) in Ok (negb (has_value v1))) (
    chk 1286 (let! v2 := (CloudGroup_parse "CHINO" RP_HEADER md_default) in Ok (negb (has_value v2))) (
    chk 1287 (let! v3 := (CloudGroup_parse "CHINO" RP_METAR md_default) in Ok (negb (has_value v3))) (
    chk 1288 (let! v4 := (CloudGroup_parse "CHINO" RP_TAF md_default) in Ok (negb (has_value v4))) (
    None)))).

Definition t_CloudGroup_chinoAppendToCompleteGroup : option N :=
    step 1292 ((CloudGroup_parse "CHINO" RP_RMK md_default)) (fun v1 => 
    chk 1293 (Ok (has_value v1)) (
    step 1294 (let! v2 := deref v1 in CloudGroup_append v2 "" RP_RMK md_default) (fun p => let v3 := Some (fst p) in let v4 := snd p in 
    chk 1294 (Ok (AppendResult_beq v4 NOT_APPENDED)) (
    step 1295 (let! v5 := deref v3 in CloudGroup_append v5 "CHINO" RP_RMK md_default) (fun p => let v6 := Some (fst p) in let v7 := snd p in 
    chk 1295 (Ok (AppendResult_beq v7 NOT_APPENDED)) (
    step 1296 (let! v8 := deref v6 in CloudGroup_append v8 "RWY32" RP_RMK md_default) (fun p => let v9 := Some (fst p) in let v10 := snd p in 
    chk 1296 (Ok (AppendResult_beq v10 NOT_APPENDED)) (
    step 1297 (let! v11 := deref v9 in CloudGroup_append v11 "R12" RP_RMK md_default) (fun p => let v12 := Some (fst p) in let v13 := snd p in 
    chk 1297 (Ok (AppendResult_beq v13 NOT_APPENDED)) (
    step 1298 (let! v14 := deref v12 in CloudGroup_append v14 "002" RP_RMK md_default) (fun p => let v15 := Some (fst p) in let v16 := snd p in 
    chk 1298 (Ok (AppendResult_beq v16 NOT_APPENDED)) (
    step 1299 (let! v17 := deref v15 in CloudGroup_append v17 "014V016" RP_RMK md_default) (fun p => let v18 := Some (fst p) in let v19 := snd p in 
    chk 1299 (Ok (AppendResult_beq v19 NOT_APPENDED)) (
    step 1300 (let! v20 := deref v18 in CloudGroup_append v20 "ALL" RP_RMK md_default) (fun p => let v21 := Some (fst p) in let v22 := snd p in 
    chk 1300 (Ok (AppendResult_beq v22 NOT_APPENDED)) (
    step 1301 (let! v23 := deref v21 in CloudGroup_append v23 "RWY" RP_RMK md_default) (fun p => let v24 := Some (fst p) in let v25 := snd p in 
    chk 1301 (Ok (AppendResult_beq v25 NOT_APPENDED)) (
    step 1302 (let! v26 := deref v24 in CloudGroup_append v26 "MISG" RP_RMK md_default) (fun p => let v27 := Some (fst p) in let v28 := snd p in 
    chk 1302 (Ok (AppendResult_beq v28 NOT_APPENDED)) (
    step 1304 ((CloudGroup_parse "CHINO" RP_RMK md_default)) (fun v29 => 
    chk 1305 (Ok (has_value v29)) (
    step 1306 (let! v30 := deref v29 in CloudGroup_append v30 "RWY24L" RP_RMK md_default) (fun p => let v31 := Some (fst p) in let v32 := snd p in 
    chk 1306 (Ok (AppendResult_beq v32 APPENDED)) (
    step 1307 (let! v33 := deref v31 in CloudGroup_append v33 "" RP_RMK md_default) (fun p => let v34 := Some (fst p) in let v35 := snd p in 
    chk 1307 (Ok (AppendResult_beq v35 NOT_APPENDED)) (
    step 1308 (let! v36 := deref v34 in CloudGroup_append v36 "CHINO" RP_RMK md_default) (fun p => let v37 := Some (fst p) in let v38 := snd p in 
    chk 1308 (Ok (AppendResult_beq v38 NOT_APPENDED)) (
    step 1309 (let! v39 := deref v37 in CloudGroup_append v39 "RWY32" RP_RMK md_default) (fun p => let v40 := Some (fst p) in let v41 := snd p in 
    chk 1309 (Ok (AppendResult_beq v41 NOT_APPENDED)) (
    step 1310 (let! v42 := deref v40 in CloudGroup_append v42 "R12" RP_RMK md_default) (fun p => let v43 := Some (fst p) in let v44 := snd p in 
    chk 1310 (Ok (AppendResult_beq v44 NOT_APPENDED)) (
    step 1311 (let! v45 := deref v43 in CloudGroup_append v45 "002" RP_RMK md_default) (fun p => let v46 := Some (fst p) in let v47 := snd p in 
    chk 1311 (Ok (AppendResult_beq v47 NOT_APPENDED)) (
    step 1312 (let! v48 := deref v46 in CloudGroup_append v48 "014V016" RP_RMK md_default) (fun p => let v49 := Some (fst p) in let v50 := snd p in 
    chk 1312 (Ok (AppendResult_beq v50 NOT_APPENDED)) (
    step 1313 (let! v51 := deref v49 in CloudGroup_append v51 "ALL" RP_RMK md_default) (fun p => let v52 := Some (fst p) in let v53 := snd p in 
    chk 1313 (Ok (AppendResult_beq v53 NOT_APPENDED)) (
    step 1314 (let! v54 := deref v52 in CloudGroup_append v54 "RWY" RP_RMK md_default) (fun p => let v55 := Some (fst p) in let v56 := snd p in 
    chk 1314 (Ok (AppendResult_beq v56 NOT_APPENDED)) (
    step 1315 (let! v57 := deref v55 in CloudGroup_append v57 "MISG" RP_RMK md_default) (fun p => let v58 := Some (fst p) in let v59 := snd p in 
    chk 1315 (Ok (AppendResult_beq v59 NOT_APPENDED)) (
    step 1317 ((CloudGroup_parse "CHINO" RP_RMK md_default)) (fun v60 => 
    chk 1318 (Ok (has_value v60)) (
    step 1319 (let! v61 := deref v60 in CloudGroup_append v61 "NW" RP_RMK md_default) (fun p => let v62 := Some (fst p) in let v63 := snd p in 
    chk 1319 (Ok (AppendResult_beq v63 APPENDED)) (
    step 1320 (let! v64 := deref v62 in CloudGroup_append v64 "" RP_RMK md_default) (fun p => let v65 := Some (fst p) in let v66 := snd p in 
    chk 1320 (Ok (AppendResult_beq v66 NOT_APPENDED)) (
    step 1321 (let! v67 := deref v65 in CloudGroup_append v67 "CHINO" RP_RMK md_default) (fun p => let v68 := Some (fst p) in let v69 := snd p in 
    chk 1321 (Ok (AppendResult_beq v69 NOT_APPENDED)) (
    step 1322 (let! v70 := deref v68 in CloudGroup_append v70 "RWY32" RP_RMK md_default) (fun p => let v71 := Some (fst p) in let v72 := snd p in 
    chk 1322 (Ok (AppendResult_beq v72 NOT_APPENDED)) (
    step 1323 (let! v73 := deref v71 in CloudGroup_append v73 "R12" RP_RMK md_default) (fun p => let v74 := Some (fst p) in let v75 := snd p in 
    chk 1323 (Ok (AppendResult_beq v75 NOT_APPENDED)) (
    step 1324 (let! v76 := deref v74 in CloudGroup_append v76 "002" RP_RMK md_default) (fun p => let v77 := Some (fst p) in let v78 := snd p in 
    chk 1324 (Ok (AppendResult_beq v78 NOT_APPENDED)) (
    step 1325 (let! v79 := deref v77 in CloudGroup_append v79 "014V016" RP_RMK md_default) (fun p => let v80 := Some (fst p) in let v81 := snd p in 
    chk 1325 (Ok (AppendResult_beq v81 NOT_APPENDED)) (
    step 1326 (let! v82 := deref v80 in CloudGroup_append v82 "ALL" RP_RMK md_default) (fun p => let v83 := Some (fst p) in let v84 := snd p in 
    chk 1326 (Ok (AppendResult_beq v84 NOT_APPENDED)) (
    step 1327 (let! v85 := deref v83 in CloudGroup_append v85 "RWY" RP_RMK md_default) (fun p => let v86 := Some (fst p) in let v87 := snd p in 
    chk 1327 (Ok (AppendResult_beq v87 NOT_APPENDED)) (
    step 1328 (let! v88 := deref v86 in CloudGroup_append v88 "MISG" RP_RMK md_default) (fun p => let v89 := Some (fst p) in let v90 := snd p in 
    chk 1328 (Ok (AppendResult_beq v90 NOT_APPENDED)) (
    None)))))))))))))))))))))))))))))))))))))))))))))))))))))))))))))))).

Definition t_CloudGroup_chinoAppendWrongGroup : option N :=
    step 1332 ((CloudGroup_parse "CHINO" RP_RMK md_default)) (fun v1 => 
    chk 1333 (Ok (has_value v1)) (
    step 1334 (let! v2 := deref v1 in CloudGroup_append v2 "CHINO" RP_RMK md_default) (fun p => let v3 := Some (fst p) in let v4 := snd p in 
    chk 1334 (Ok (AppendResult_beq v4 NOT_APPENDED)) (
    step 1336 ((CloudGroup_parse "CHINO" RP_RMK md_default)) (fun v5 => 
    chk 1337 (Ok (has_value v5)) (
    step 1338 (let! v6 := deref v5 in CloudGroup_append v6 "CHINO" RP_RMK md_default) (fun p => let v7 := Some (fst p) in let v8 := snd p in 
    chk 1338 (Ok (AppendResult_beq v8 NOT_APPENDED)) (
    step 1340 ((CloudGroup_parse "CHINO" RP_RMK md_default)) (fun v9 => 
    chk 1341 (Ok (has_value v9)) (
    step 1342 (let! v10 := deref v9 in CloudGroup_append v10 "002" RP_RMK md_default) (fun p => let v11 := Some (fst p) in let v12 := snd p in 
    chk 1342 (Ok (AppendResult_beq v12 NOT_APPENDED)) (
    step 1344 ((CloudGroup_parse "CHINO" RP_RMK md_default)) (fun v13 => 
    chk 1345 (Ok (has_value v13)) (
    step 1346 (let! v14 := deref v13 in CloudGroup_append v14 "014V016" RP_RMK md_default) (fun p => let v15 := Some (fst p) in let v16 := snd p in 
    chk 1346 (Ok (AppendResult_beq v16 NOT_APPENDED)) (
    step 1348 ((CloudGroup_parse "CHINO" RP_RMK md_default)) (fun v17 => 
    chk 1349 (Ok (has_value v17)) (
    step 1350 (let! v18 := deref v17 in CloudGroup_append v18 "ALL" RP_RMK md_default) (fun p => let v19 := Some (fst p) in let v20 := snd p in 
    chk 1350 (Ok (AppendResult_beq v20 NOT_APPENDED)) (
    step 1352 ((CloudGroup_parse "CHINO" RP_RMK md_default)) (fun v21 => 
    chk 1353 (Ok (has_value v21)) (
    step 1354 (let! v22 := deref v21 in CloudGroup_append v22 "RWY" RP_RMK md_default) (fun p => let v23 := Some (fst p) in let v24 := snd p in 
    chk 1354 (Ok (AppendResult_beq v24 NOT_APPENDED)) (
    step 1356 ((CloudGroup_parse "CHINO" RP_RMK md_default)) (fun v25 => 
    chk 1357 (Ok (has_value v25)) (
    step 1358 (let! v26 := deref v25 in CloudGroup_append v26 "MISG" RP_RMK md_default) (fun p => let v27 := Some (fst p) in let v28 := snd p in 
    chk 1358 (Ok (AppendResult_beq v28 NOT_APPENDED)) (
    None)))))))))))))))))))))))))))).

Definition t_CloudGroup_parseCldMisg : option N :=
    step 1368 ((CloudGroup_parse "CLD" RP_RMK md_default)) (fun v1 => 
    chk 1369 (Ok (has_value v1)) (
    step 1370 (let! v2 := deref v1 in CloudGroup_append v2 "MISG" RP_RMK md_default) (fun p => let v3 := Some (fst p) in let v4 := snd p in 
    chk 1370 (Ok (AppendResult_beq v4 APPENDED)) (
    chk 1372 (let! v5 := deref v3 in Ok (ClType_beq (cl_tp v5) Cl_CLD_MISG)) (
    chk 1373 (let! v6 := deref v3 in Ok (ClAmount_beq (cl_amnt v6) Am_NOT_REPORTED)) (
    chk 1374 (let! v7 := deref v3 in Ok (negb (Distance_isReported (CloudGroup_height v7)))) (
    chk 1375 (let! v8 := deref v3 in Ok (ClConv_beq (cl_conv v8) Cv_NONE)) (
    chk 1376 (let! v9 := deref v3 in Ok (negb (Distance_isReported (CloudGroup_verticalVisibility v9)))) (
    chk 1377 (let! v10 := deref v3 in Ok (negb (Distance_isReported (CloudGroup_minHeight v10)))) (
    chk 1378 (let! v11 := deref v3 in Ok (negb (Distance_isReported (CloudGroup_maxHeight v11)))) (
    chk 1379 (let! v12 := deref v3 in Ok (negb (has_value (cl_rw v12)))) (
    chk 1380 (let! v13 := deref v3 in Ok (negb (has_value (cl_dir v13)))) (
    None))))))))))))).

Definition t_CloudGroup_parseCldAndOther : option N :=
    step 1386 ((CloudGroup_parse "CLD" RP_RMK md_default)) (fun v1 => 
    chk 1387 (Ok (has_value v1)) (
    step 1388 (let! v2 := deref v1 in CloudGroup_append v2 "MSSG" RP_RMK md_default) (fun p => let v3 := Some (fst p) in let v4 := snd p in 
    chk 1388 (Ok (AppendResult_beq v4 GROUP_INVALIDATED)) (
    step 1391 ((CloudGroup_parse "CLD" RP_RMK md_default)) (fun v5 => 
    chk 1392 (Ok (has_value v5)) (
    step 1393 (let! v6 := deref v5 in CloudGroup_append v6 "4000" RP_RMK md_default) (fun p => let v7 := Some (fst p) in let v8 := snd p in 
    chk 1393 (Ok (AppendResult_beq v8 GROUP_INVALIDATED)) (
    step 1396 ((CloudGroup_parse "CLD" RP_RMK md_default)) (fun v9 => 
    chk 1397 (Ok (has_value v9)) (
    step 1398 (let! v10 := deref v9 in CloudGroup_append v10 "////" RP_RMK md_default) (fun p => let v11 := Some (fst p) in let v12 := snd p in 
    chk 1398 (Ok (AppendResult_beq v12 GROUP_INVALIDATED)) (
    step 1401 ((CloudGroup_parse "CLD" RP_RMK md_default)) (fun v13 => 
    chk 1402 (Ok (has_value v13)) (
    step 1403 (let! v14 := deref v13 in CloudGroup_append v14 "CLD" RP_RMK md_default) (fun p => let v15 := Some (fst p) in let v16 := snd p in 
    chk 1403 (Ok (AppendResult_beq v16 GROUP_INVALIDATED)) (
    step 1406 ((CloudGroup_parse "CLD" RP_RMK md_default)) (fun v17 => 
    chk 1407 (Ok (has_value v17)) (
    step 1408 (let! v18 := deref v17 in CloudGroup_append v18 "" RP_RMK md_default) (fun p => let v19 := Some (fst p) in let v20 := snd p in 
    chk 1408 (Ok (AppendResult_beq v20 GROUP_INVALIDATED)) (
    None)))))))))))))))))))).

Definition t_CloudGroup_parseMisg : option N :=
    chk 1413 (let! v1 := (CloudGroup_parse "MISG" RP_UNKNOWN md_default) in Ok (negb (has_value v1))) (
    chk 1414 (let! v2 := (CloudGroup_parse "MISG" RP_HEADER md_default) in Ok (negb (has_value v2))) (
    chk 1415 (let! v3 := (CloudGroup_parse "MISG" RP_METAR md_default) in Ok (negb (has_value v3))) (
    chk 1416 (let! v4 := (CloudGroup_parse "MISG" RP_TAF md_default) in Ok (negb (has_value v4))) (
    chk 1417 (let! v5 := (CloudGroup_parse "MISG" RP_RMK md_default) in Ok (negb (has_value v5))) (
    None))))).

Definition t_CloudGroup_parseObscurationGroundBased : option N :=
    step 1428 ((CloudGroup_parse "BLSN" RP_RMK md_default)) (fun v1 => 
    chk 1429 (Ok (has_value v1)) (
    step 1430 (let! v2 := deref v1 in CloudGroup_append v2 "BKN000" RP_RMK md_default) (fun p => let v3 := Some (fst p) in let v4 := snd p in 
    chk 1430 (Ok (AppendResult_beq v4 APPENDED)) (
    chk 1432 (let! v5 := deref v3 in Ok (ClType_beq (cl_tp v5) Cl_OBSCURATION)) (
    chk 1433 (let! v6 := deref v3 in Ok (ClAmount_beq (cl_amnt v6) Am_BROKEN)) (
    chk 1435 (let! v7 := deref v3 in Ok (Distance_isReported (CloudGroup_height v7))) (
    chk 1436 (let! v8 := deref v3 in let! v9 := deref (Distance_distance (CloudGroup_height v8)) in Ok (near v9 (dlit (0) 1) (dlit (1) 2))) (
    chk 1437 (let! v10 := deref v3 in Ok (DistUnit_beq (distUnit (CloudGroup_height v10)) FEET)) (
    chk 1439 (let! v11 := deref v3 in Ok (ClConv_beq (cl_conv v11) Cv_NONE)) (
    chk 1440 (let! v12 := deref v3 in Ok (negb (Distance_isReported (CloudGroup_verticalVisibility v12)))) (
    chk 1441 (let! v13 := deref v3 in Ok (negb (Distance_isReported (CloudGroup_minHeight v13)))) (
    chk 1442 (let! v14 := deref v3 in Ok (negb (Distance_isReported (CloudGroup_maxHeight v14)))) (
    chk 1443 (let! v15 := deref v3 in Ok (negb (has_value (cl_rw v15)))) (
    chk 1444 (let! v16 := deref v3 in Ok (negb (has_value (cl_dir v16)))) (
    step 1446 (deref v3) (fun v17 => 
    chk 1447 (Ok (has_value (CloudGroup_cloudType v17))) (
    chk 1448 (let! v18 := deref (CloudGroup_cloudType v17) in Ok (CtType_beq (ctTp v18) Ct_BLOWING_SNOW)) (
    chk 1449 (let! v19 := deref (CloudGroup_cloudType v17) in Ok (Distance_isReported (ctHt v19))) (
    chk 1450 (let! v20 := deref (CloudGroup_cloudType v17) in Ok (DistModifier_beq (distModifier (ctHt v20)) DM_NONE)) (
    chk 1451 (let! v21 := deref (CloudGroup_cloudType v17) in Ok (has_value (Distance_distance (ctHt v21)))) (
    chk 1452 (let! v22 := deref (CloudGroup_cloudType v17) in let! v23 := deref (Distance_distance (ctHt v22)) in Ok (near v23 (dlit (0) 1) (dlit (1) 2))) (
    chk 1453 (let! v24 := deref (CloudGroup_cloudType v17) in Ok (DistUnit_beq (distUnit (ctHt v24)) FEET)) (
    chk 1454 (let! v25 := deref (CloudGroup_cloudType v17) in Ok (N.eqb (ctOkt v25) 7%N)) (
    None)))))))))))))))))))))))).

Definition t_CloudGroup_parseObscurationAloft : option N :=
    step 1458 ((CloudGroup_parse "FU" RP_RMK md_default)) (fun v1 => 
    chk 1459 (Ok (has_value v1)) (
    step 1460 (let! v2 := deref v1 in CloudGroup_append v2 "BKN002" RP_RMK md_default) (fun p => let v3 := Some (fst p) in let v4 := snd p in 
    chk 1460 (Ok (AppendResult_beq v4 APPENDED)) (
    chk 1462 (let! v5 := deref v3 in Ok (ClType_beq (cl_tp v5) Cl_OBSCURATION)) (
    chk 1463 (let! v6 := deref v3 in Ok (ClAmount_beq (cl_amnt v6) Am_BROKEN)) (
    chk 1465 (let! v7 := deref v3 in Ok (Distance_isReported (CloudGroup_height v7))) (
    chk 1466 (let! v8 := deref v3 in let! v9 := deref (Distance_distance (CloudGroup_height v8)) in Ok (near v9 (dlit (200) 1) (dlit (1) 2))) (
    chk 1467 (let! v10 := deref v3 in Ok (DistUnit_beq (distUnit (CloudGroup_height v10)) FEET)) (
    chk 1469 (let! v11 := deref v3 in Ok (ClConv_beq (cl_conv v11) Cv_NONE)) (
    chk 1470 (let! v12 := deref v3 in Ok (negb (Distance_isReported (CloudGroup_verticalVisibility v12)))) (
    chk 1471 (let! v13 := deref v3 in Ok (negb (Distance_isReported (CloudGroup_minHeight v13)))) (
    chk 1472 (let! v14 := deref v3 in Ok (negb (Distance_isReported (CloudGroup_maxHeight v14)))) (
    chk 1473 (let! v15 := deref v3 in Ok (negb (has_value (cl_rw v15)))) (
    chk 1474 (let! v16 := deref v3 in Ok (negb (has_value (cl_dir v16)))) (
    step 1476 (deref v3) (fun v17 => 
    chk 1477 (Ok (has_value (CloudGroup_cloudType v17))) (
    chk 1478 (let! v18 := deref (CloudGroup_cloudType v17) in Ok (CtType_beq (ctTp v18) Ct_SMOKE)) (
    chk 1479 (let! v19 := deref (CloudGroup_cloudType v17) in Ok (Distance_isReported (ctHt v19))) (
    chk 1480 (let! v20 := deref (CloudGroup_cloudType v17) in Ok (DistModifier_beq (distModifier (ctHt v20)) DM_NONE)) (
    chk 1481 (let! v21 := deref (CloudGroup_cloudType v17) in Ok (has_value (Distance_distance (ctHt v21)))) (
    chk 1482 (let! v22 := deref (CloudGroup_cloudType v17) in let! v23 := deref (Distance_distance (ctHt v22)) in Ok (near v23 (dlit (200) 1) (dlit (1) 2))) (
    chk 1483 (let! v24 := deref (CloudGroup_cloudType v17) in Ok (DistUnit_beq (distUnit (ctHt v24)) FEET)) (
    chk 1484 (let! v25 := deref (CloudGroup_cloudType v17) in Ok (N.eqb (ctOkt v25) 7%N)) (
    None)))))))))))))))))))))))).

Definition t_CloudGroup_parseObscurationFew : option N :=
    step 1488 ((CloudGroup_parse "FG" RP_RMK md_default)) (fun v1 => 
    chk 1489 (Ok (has_value v1)) (
    step 1490 (let! v2 := deref v1 in CloudGroup_append v2 "FEW000" RP_RMK md_default) (fun p => let v3 := Some (fst p) in let v4 := snd p in 
    chk 1490 (Ok (AppendResult_beq v4 APPENDED)) (
    chk 1492 (let! v5 := deref v3 in Ok (ClType_beq (cl_tp v5) Cl_OBSCURATION)) (
    chk 1493 (let! v6 := deref v3 in Ok (ClAmount_beq (cl_amnt v6) Am_FEW)) (
    step 1495 (deref v3) (fun v7 => 
    chk 1496 (Ok (has_value (CloudGroup_cloudType v7))) (
    chk 1497 (let! v8 := deref (CloudGroup_cloudType v7) in Ok (CtType_beq (ctTp v8) Ct_FOG)) (
    chk 1498 (let! v9 := deref (CloudGroup_cloudType v7) in Ok (N.eqb (ctOkt v9) 2%N)) (
    None)))))))))).

Definition t_CloudGroup_parseObscurationScattered : option N :=
    step 1502 ((CloudGroup_parse "FG" RP_RMK md_default)) (fun v1 => 
    chk 1503 (Ok (has_value v1)) (
    step 1504 (let! v2 := deref v1 in CloudGroup_append v2 "SCT000" RP_RMK md_default) (fun p => let v3 := Some (fst p) in let v4 := snd p in 
    chk 1504 (Ok (AppendResult_beq v4 APPENDED)) (
    chk 1506 (let! v5 := deref v3 in Ok (ClType_beq (cl_tp v5) Cl_OBSCURATION)) (
    chk 1507 (let! v6 := deref v3 in Ok (ClAmount_beq (cl_amnt v6) Am_SCATTERED)) (
    step 1509 (deref v3) (fun v7 => 
    chk 1510 (Ok (has_value (CloudGroup_cloudType v7))) (
    chk 1511 (let! v8 := deref (CloudGroup_cloudType v7) in Ok (CtType_beq (ctTp v8) Ct_FOG)) (
    chk 1512 (let! v9 := deref (CloudGroup_cloudType v7) in Ok (DistUnit_beq (distUnit (ctHt v9)) FEET)) (
    chk 1513 (let! v10 := deref (CloudGroup_cloudType v7) in Ok (N.eqb (ctOkt v10) 4%N)) (
    None))))))))))).

Definition t_CloudGroup_parseObscurationBroken : option N :=
    step 1517 ((CloudGroup_parse "FG" RP_RMK md_default)) (fun v1 => 
    chk 1518 (Ok (has_value v1)) (
    step 1519 (let! v2 := deref v1 in CloudGroup_append v2 "BKN000" RP_RMK md_default) (fun p => let v3 := Some (fst p) in let v4 := snd p in 
    chk 1519 (Ok (AppendResult_beq v4 APPENDED)) (
    chk 1521 (let! v5 := deref v3 in Ok (ClType_beq (cl_tp v5) Cl_OBSCURATION)) (
    chk 1522 (let! v6 := deref v3 in Ok (ClAmount_beq (cl_amnt v6) Am_BROKEN)) (
    step 1524 (deref v3) (fun v7 => 
    chk 1525 (Ok (has_value (CloudGroup_cloudType v7))) (
    chk 1526 (let! v8 := deref (CloudGroup_cloudType v7) in Ok (CtType_beq (ctTp v8) Ct_FOG)) (
    chk 1527 (let! v9 := deref (CloudGroup_cloudType v7) in Ok (N.eqb (ctOkt v9) 7%N)) (
    None)))))))))).

Definition t_CloudGroup_parseObscurationOvercast : option N :=
    step 1531 ((CloudGroup_parse "FG" RP_RMK md_default)) (fun v1 => 
    chk 1532 (Ok (has_value v1)) (
    step 1533 (let! v2 := deref v1 in CloudGroup_append v2 "OVC000" RP_RMK md_default) (fun p => let v3 := Some (fst p) in let v4 := snd p in 
    chk 1533 (Ok (AppendResult_beq v4 APPENDED)) (
    chk 1535 (let! v5 := deref v3 in Ok (ClType_beq (cl_tp v5) Cl_OBSCURATION)) (
    chk 1536 (let! v6 := deref v3 in Ok (ClAmount_beq (cl_amnt v6) Am_OVERCAST)) (
    step 1538 (deref v3) (fun v7 => 
    chk 1539 (Ok (has_value (CloudGroup_cloudType v7))) (
    chk 1540 (let! v8 := deref (CloudGroup_cloudType v7) in Ok (CtType_beq (ctTp v8) Ct_FOG)) (
    chk 1541 (let! v9 := deref (CloudGroup_cloudType v7) in Ok (N.eqb (ctOkt v9) 8%N)) (
    None)))))))))).

Definition t_CloudGroup_parseObscurationBlowingSnow : option N :=
    step 1545 ((CloudGroup_parse "BLSN" RP_RMK md_default)) (fun v1 => 
    chk 1546 (Ok (has_value v1)) (
    step 1547 (let! v2 := deref v1 in CloudGroup_append v2 "BKN000" RP_RMK md_default) (fun p => let v3 := Some (fst p) in let v4 := snd p in 
    chk 1547 (Ok (AppendResult_beq v4 APPENDED)) (
    chk 1548 (let! v5 := deref v3 in Ok (ClType_beq (cl_tp v5) Cl_OBSCURATION)) (
    step 1549 (deref v3) (fun v6 => 
    chk 1550 (Ok (has_value (CloudGroup_cloudType v6))) (
    chk 1551 (let! v7 := deref (CloudGroup_cloudType v6) in Ok (CtType_beq (ctTp v7) Ct_BLOWING_SNOW)) (
    None)))))))).

Definition t_CloudGroup_parseObscurationBlowingDust : option N :=
    step 1555 ((CloudGroup_parse "BLDU" RP_RMK md_default)) (fun v1 => 
    chk 1556 (Ok (has_value v1)) (
    step 1557 (let! v2 := deref v1 in CloudGroup_append v2 "BKN000" RP_RMK md_default) (fun p => let v3 := Some (fst p) in let v4 := snd p in 
    chk 1557 (Ok (AppendResult_beq v4 APPENDED)) (
    chk 1558 (let! v5 := deref v3 in Ok (ClType_beq (cl_tp v5) Cl_OBSCURATION)) (
    step 1559 (deref v3) (fun v6 => 
    chk 1560 (Ok (has_value (CloudGroup_cloudType v6))) (
    chk 1561 (let! v7 := deref (CloudGroup_cloudType v6) in Ok (CtType_beq (ctTp v7) Ct_BLOWING_DUST)) (
    None)))))))).

Definition t_CloudGroup_parseObscurationBlowingSand : option N :=
    step 1565 ((CloudGroup_parse "BLSA" RP_RMK md_default)) (fun v1 => 
    chk 1566 (Ok (has_value v1)) (
    step 1567 (let! v2 := deref v1 in CloudGroup_append v2 "BKN000" RP_RMK md_default) (fun p => let v3 := Some (fst p) in let v4 := snd p in 
    chk 1567 (Ok (AppendResult_beq v4 APPENDED)) (
    chk 1568 (let! v5 := deref v3 in Ok (ClType_beq (cl_tp v5) Cl_OBSCURATION)) (
    step 1569 (deref v3) (fun v6 => 
    chk 1570 (Ok (has_value (CloudGroup_cloudType v6))) (
    chk 1571 (let! v7 := deref (CloudGroup_cloudType v6) in Ok (CtType_beq (ctTp v7) Ct_BLOWING_SAND)) (
    None)))))))).

Definition t_CloudGroup_parseObscurationFog : option N :=
    step 1575 ((CloudGroup_parse "FG" RP_RMK md_default)) (fun v1 => 
    chk 1576 (Ok (has_value v1)) (
    step 1577 (let! v2 := deref v1 in CloudGroup_append v2 "BKN000" RP_RMK md_default) (fun p => let v3 := Some (fst p) in let v4 := snd p in 
    chk 1577 (Ok (AppendResult_beq v4 APPENDED)) (
    chk 1578 (let! v5 := deref v3 in Ok (ClType_beq (cl_tp v5) Cl_OBSCURATION)) (
    step 1579 (deref v3) (fun v6 => 
    chk 1580 (Ok (has_value (CloudGroup_cloudType v6))) (
    chk 1581 (let! v7 := deref (CloudGroup_cloudType v6) in Ok (CtType_beq (ctTp v7) Ct_FOG)) (
    None)))))))).

Definition t_CloudGroup_parseObscurationSmoke : option N :=
    step 1585 ((CloudGroup_parse "FU" RP_RMK md_default)) (fun v1 => 
    chk 1586 (Ok (has_value v1)) (
    step 1587 (let! v2 := deref v1 in CloudGroup_append v2 "BKN020" RP_RMK md_default) (fun p => let v3 := Some (fst p) in let v4 := snd p in 
    chk 1587 (Ok (AppendResult_beq v4 APPENDED)) (
    chk 1588 (let! v5 := deref v3 in Ok (ClType_beq (cl_tp v5) Cl_OBSCURATION)) (
    step 1589 (deref v3) (fun v6 => 
    chk 1590 (Ok (has_value (CloudGroup_cloudType v6))) (
    chk 1591 (let! v7 := deref (CloudGroup_cloudType v6) in Ok (CtType_beq (ctTp v7) Ct_SMOKE)) (
    None)))))))).

Definition t_CloudGroup_parseObscurationVolcanicAsh : option N :=
    step 1595 ((CloudGroup_parse "VA" RP_RMK md_default)) (fun v1 => 
    chk 1596 (Ok (has_value v1)) (
    step 1597 (let! v2 := deref v1 in CloudGroup_append v2 "SCT085" RP_RMK md_default) (fun p => let v3 := Some (fst p) in let v4 := snd p in 
    chk 1597 (Ok (AppendResult_beq v4 APPENDED)) (
    chk 1598 (let! v5 := deref v3 in Ok (ClType_beq (cl_tp v5) Cl_OBSCURATION)) (
    step 1599 (deref v3) (fun v6 => 
    chk 1600 (Ok (has_value (CloudGroup_cloudType v6))) (
    chk 1601 (let! v7 := deref (CloudGroup_cloudType v6) in Ok (CtType_beq (ctTp v7) Ct_VOLCANIC_ASH)) (
    None)))))))).

Definition t_CloudGroup_cloudTypeNoClouds : option N :=
    step 1613 ((CloudGroup_parse "CLR" RP_METAR md_default)) (fun v1 => 
    chk 1614 (Ok (has_value v1)) (
    chk 1615 (let! v2 := deref v1 in Ok (negb (has_value (CloudGroup_cloudType v2)))) (
    step 1617 ((CloudGroup_parse "SKC" RP_METAR md_default)) (fun v3 => 
    chk 1618 (Ok (has_value v3)) (
    chk 1619 (let! v4 := deref v3 in Ok (negb (has_value (CloudGroup_cloudType v4)))) (
    step 1621 ((CloudGroup_parse "NCD" RP_METAR md_default)) (fun v5 => 
    chk 1622 (Ok (has_value v5)) (
    chk 1623 (let! v6 := deref v5 in Ok (negb (has_value (CloudGroup_cloudType v6)))) (
    step 1625 ((CloudGroup_parse "NSC" RP_METAR md_default)) (fun v7 => 
    chk 1626 (Ok (has_value v7)) (
    chk 1627 (let! v8 := deref v7 in Ok (negb (has_value (CloudGroup_cloudType v8)))) (
    None)))))))))))).

Definition t_CloudGroup_cloudTypeVerticalVisibility : option N :=
    step 1631 ((CloudGroup_parse "VV002" RP_METAR md_default)) (fun v1 => 
    chk 1632 (Ok (has_value v1)) (
    chk 1633 (let! v2 := deref v1 in Ok (negb (has_value (CloudGroup_cloudType v2)))) (
    step 1635 ((CloudGroup_parse "VV///" RP_METAR md_default)) (fun v3 => 
    chk 1636 (Ok (has_value v3)) (
    chk 1637 (let! v4 := deref v3 in Ok (negb (has_value (CloudGroup_cloudType v4)))) (
    None)))))).

Definition t_CloudGroup_cloudTypeChino : option N :=
    step 1641 ((CloudGroup_parse "CHINO" RP_RMK md_default)) (fun v1 => 
    chk 1642 (Ok (has_value v1)) (
    step 1643 (let! v2 := deref v1 in CloudGroup_append v2 "" RP_RMK md_default) (fun p => let v3 := Some (fst p) in let v4 := snd p in 
    chk 1643 (Ok (AppendResult_beq v4 NOT_APPENDED)) (
    chk 1644 (let! v5 := deref v3 in Ok (negb (has_value (CloudGroup_cloudType v5)))) (
    step 1646 ((CloudGroup_parse "CHINO" RP_RMK md_default)) (fun v6 => 
    step 1647 (let! v7 := deref v6 in CloudGroup_append v7 "R18" RP_RMK md_default) (fun p => let v8 := Some (fst p) in let v9 := snd p in 
    chk 1647 (Ok (AppendResult_beq v9 APPENDED)) (
    chk 1648 (let! v10 := deref v8 in Ok (negb (has_value (CloudGroup_cloudType v10)))) (
    step 1650 ((CloudGroup_parse "CHINO" RP_RMK md_default)) (fun v11 => 
    step 1651 (let! v12 := deref v11 in CloudGroup_append v12 "W" RP_RMK md_default) (fun p => let v13 := Some (fst p) in let v14 := snd p in 
    chk 1651 (Ok (AppendResult_beq v14 APPENDED)) (
    chk 1652 (let! v15 := deref v13 in Ok (negb (has_value (CloudGroup_cloudType v15)))) (
    None))))))))))))).

Definition t_CloudGroup_cloudTypeCldMisg : option N :=
    step 1656 ((CloudGroup_parse "CLD" RP_RMK md_default)) (fun v1 => 
    chk 1657 (Ok (has_value v1)) (
    step 1658 (let! v2 := deref v1 in CloudGroup_append v2 "MISG" RP_RMK md_default) (fun p => let v3 := Some (fst p) in let v4 := snd p in 
    chk 1658 (Ok (AppendResult_beq v4 APPENDED)) (
    chk 1659 (let! v5 := deref v3 in Ok (negb (has_value (CloudGroup_cloudType v5)))) (
    None))))).

Definition t_CloudGroup_cloudTypeCloudLayer : option N :=
    step 1663 ((CloudGroup_parse "FEW117" RP_METAR md_default)) (fun v1 => 
    chk 1664 (Ok (has_value v1)) (
    step 1665 (deref v1) (fun v2 => 
    chk 1666 (Ok (has_value (CloudGroup_cloudType v2))) (
    chk 1668 (let! v3 := deref (CloudGroup_cloudType v2) in Ok (CtType_beq (ctTp v3) Ct_NOT_REPORTED)) (
    chk 1669 (let! v4 := deref (CloudGroup_cloudType v2) in Ok (Distance_isReported (ctHt v4))) (
    chk 1670 (let! v5 := deref (CloudGroup_cloudType v2) in Ok (DistModifier_beq (distModifier (ctHt v5)) DM_NONE)) (
    chk 1671 (let! v6 := deref (CloudGroup_cloudType v2) in Ok (has_value (Distance_distance (ctHt v6)))) (
    chk 1672 (let! v7 := deref (CloudGroup_cloudType v2) in let! v8 := deref (Distance_distance (ctHt v7)) in Ok (near v8 (dlit (11700) 1) (dlit (1) 2))) (
    chk 1673 (let! v9 := deref (CloudGroup_cloudType v2) in Ok (DistUnit_beq (distUnit (ctHt v9)) FEET)) (
    chk 1674 (let! v10 := deref (CloudGroup_cloudType v2) in Ok (N.eqb (ctOkt v10) 2%N)) (
    step 1676 ((CloudGroup_parse "SCT040" RP_METAR md_default)) (fun v11 => 
    chk 1677 (Ok (has_value v11)) (
    step 1678 (deref v11) (fun v12 => 
    chk 1679 (Ok (has_value (CloudGroup_cloudType v12))) (
    chk 1681 (let! v13 := deref (CloudGroup_cloudType v12) in Ok (CtType_beq (ctTp v13) Ct_NOT_REPORTED)) (
    chk 1682 (let! v14 := deref (CloudGroup_cloudType v12) in Ok (Distance_isReported (ctHt v14))) (
    chk 1683 (let! v15 := deref (CloudGroup_cloudType v12) in Ok (DistModifier_beq (distModifier (ctHt v15)) DM_NONE)) (
    chk 1684 (let! v16 := deref (CloudGroup_cloudType v12) in Ok (has_value (Distance_distance (ctHt v16)))) (
    chk 1685 (let! v17 := deref (CloudGroup_cloudType v12) in let! v18 := deref (Distance_distance (ctHt v17)) in Ok (near v18 (dlit (4000) 1) (dlit (1) 2))) (
    chk 1686 (let! v19 := deref (CloudGroup_cloudType v12) in Ok (DistUnit_beq (distUnit (ctHt v19)) FEET)) (
    chk 1687 (let! v20 := deref (CloudGroup_cloudType v12) in Ok (N.eqb (ctOkt v20) 4%N)) (
    step 1689 ((CloudGroup_parse "BKN026" RP_METAR md_default)) (fun v21 => 
    chk 1690 (Ok (has_value v21)) (
    step 1691 (deref v21) (fun v22 => 
    chk 1692 (Ok (has_value (CloudGroup_cloudType v22))) (
    chk 1694 (let! v23 := deref (CloudGroup_cloudType v22) in Ok (CtType_beq (ctTp v23) Ct_NOT_REPORTED)) (
    chk 1695 (let! v24 := deref (CloudGroup_cloudType v22) in Ok (Distance_isReported (ctHt v24))) (
    chk 1696 (let! v25 := deref (CloudGroup_cloudType v22) in Ok (DistModifier_beq (distModifier (ctHt v25)) DM_NONE)) (
    chk 1697 (let! v26 := deref (CloudGroup_cloudType v22) in Ok (has_value (Distance_distance (ctHt v26)))) (
    chk 1698 (let! v27 := deref (CloudGroup_cloudType v22) in let! v28 := deref (Distance_distance (ctHt v27)) in Ok (near v28 (dlit (2600) 1) (dlit (1) 2))) (
    chk 1699 (let! v29 := deref (CloudGroup_cloudType v22) in Ok (DistUnit_beq (distUnit (ctHt v29)) FEET)) (
    chk 1700 (let! v30 := deref (CloudGroup_cloudType v22) in Ok (N.eqb (ctOkt v30) 7%N)) (
    step 1702 ((CloudGroup_parse "OVC002" RP_METAR md_default)) (fun v31 => 
    chk 1703 (Ok (has_value v31)) (
    step 1704 (deref v31) (fun v32 => 
    chk 1705 (Ok (has_value (CloudGroup_cloudType v32))) (
    chk 1707 (let! v33 := deref (CloudGroup_cloudType v32) in Ok (CtType_beq (ctTp v33) Ct_NOT_REPORTED)) (
    chk 1708 (let! v34 := deref (CloudGroup_cloudType v32) in Ok (Distance_isReported (ctHt v34))) (
    chk 1709 (let! v35 := deref (CloudGroup_cloudType v32) in Ok (DistModifier_beq (distModifier (ctHt v35)) DM_NONE)) (
    chk 1710 (let! v36 := deref (CloudGroup_cloudType v32) in Ok (has_value (Distance_distance (ctHt v36)))) (
    chk 1711 (let! v37 := deref (CloudGroup_cloudType v32) in let! v38 := deref (Distance_distance (ctHt v37)) in Ok (near v38 (dlit (200) 1) (dlit (1) 2))) (
    chk 1712 (let! v39 := deref (CloudGroup_cloudType v32) in Ok (DistUnit_beq (distUnit (ctHt v39)) FEET)) (
    chk 1713 (let! v40 := deref (CloudGroup_cloudType v32) in Ok (N.eqb (ctOkt v40) 8%N)) (
    None)))))))))))))))))))))))))))))))))))))))))))).

Definition t_CloudGroup_cloudTypeCloudLayerType : option N :=
    step 1717 ((CloudGroup_parse "SCT025TCU" RP_METAR md_default)) (fun v1 => 
    chk 1718 (Ok (has_value v1)) (
    step 1719 (deref v1) (fun v2 => 
    chk 1720 (Ok (has_value (CloudGroup_cloudType v2))) (
    chk 1722 (let! v3 := deref (CloudGroup_cloudType v2) in Ok (CtType_beq (ctTp v3) Ct_TOWERING_CUMULUS)) (
    chk 1723 (let! v4 := deref (CloudGroup_cloudType v2) in Ok (Distance_isReported (ctHt v4))) (
    chk 1724 (let! v5 := deref (CloudGroup_cloudType v2) in Ok (DistModifier_beq (distModifier (ctHt v5)) DM_NONE)) (
    chk 1725 (let! v6 := deref (CloudGroup_cloudType v2) in Ok (has_value (Distance_distance (ctHt v6)))) (
    chk 1726 (let! v7 := deref (CloudGroup_cloudType v2) in let! v8 := deref (Distance_distance (ctHt v7)) in Ok (near v8 (dlit (2500) 1) (dlit (1) 2))) (
    chk 1727 (let! v9 := deref (CloudGroup_cloudType v2) in Ok (DistUnit_beq (distUnit (ctHt v9)) FEET)) (
    chk 1728 (let! v10 := deref (CloudGroup_cloudType v2) in Ok (N.eqb (ctOkt v10) 4%N)) (
    step 1730 ((CloudGroup_parse "BKN012CB" RP_METAR md_default)) (fun v11 => 
    chk 1731 (Ok (has_value v11)) (
    step 1732 (deref v11) (fun v12 => 
    chk 1733 (Ok (has_value (CloudGroup_cloudType v12))) (
    chk 1735 (let! v13 := deref (CloudGroup_cloudType v12) in Ok (CtType_beq (ctTp v13) Ct_CUMULONIMBUS)) (
    chk 1736 (let! v14 := deref (CloudGroup_cloudType v12) in Ok (Distance_isReported (ctHt v14))) (
    chk 1737 (let! v15 := deref (CloudGroup_cloudType v12) in Ok (DistModifier_beq (distModifier (ctHt v15)) DM_NONE)) (
    chk 1738 (let! v16 := deref (CloudGroup_cloudType v12) in Ok (has_value (Distance_distance (ctHt v16)))) (
    chk 1739 (let! v17 := deref (CloudGroup_cloudType v12) in let! v18 := deref (Distance_distance (ctHt v17)) in Ok (near v18 (dlit (1200) 1) (dlit (1) 2))) (
    chk 1740 (let! v19 := deref (CloudGroup_cloudType v12) in Ok (DistUnit_beq (distUnit (ctHt v19)) FEET)) (
    chk 1741 (let! v20 := deref (CloudGroup_cloudType v12) in Ok (N.eqb (ctOkt v20) 7%N)) (
    None)))))))))))))))))))))).

Definition t_CloudGroup_cloudTypeCloudLayerNotReported : option N :=
    step 1745 ((CloudGroup_parse "///074" RP_METAR md_default)) (fun v1 => 
    chk 1746 (Ok (has_value v1)) (
    step 1747 (deref v1) (fun v2 => 
    chk 1748 (Ok (has_value (CloudGroup_cloudType v2))) (
    chk 1750 (let! v3 := deref (CloudGroup_cloudType v2) in Ok (CtType_beq (ctTp v3) Ct_NOT_REPORTED)) (
    chk 1751 (let! v4 := deref (CloudGroup_cloudType v2) in Ok (Distance_isReported (ctHt v4))) (
    chk 1752 (let! v5 := deref (CloudGroup_cloudType v2) in Ok (DistModifier_beq (distModifier (ctHt v5)) DM_NONE)) (
    chk 1753 (let! v6 := deref (CloudGroup_cloudType v2) in Ok (has_value (Distance_distance (ctHt v6)))) (
    chk 1754 (let! v7 := deref (CloudGroup_cloudType v2) in let! v8 := deref (Distance_distance (ctHt v7)) in Ok (near v8 (dlit (7400) 1) (dlit (1) 2))) (
    chk 1755 (let! v9 := deref (CloudGroup_cloudType v2) in Ok (DistUnit_beq (distUnit (ctHt v9)) FEET)) (
    chk 1756 (let! v10 := deref (CloudGroup_cloudType v2) in Ok (N.eqb (ctOkt v10) 0%N)) (
    step 1758 ((CloudGroup_parse "FEW///" RP_METAR md_default)) (fun v11 => 
    chk 1759 (Ok (has_value v11)) (
    step 1760 (deref v11) (fun v12 => 
    chk 1761 (Ok (has_value (CloudGroup_cloudType v12))) (
    chk 1763 (let! v13 := deref (CloudGroup_cloudType v12) in Ok (CtType_beq (ctTp v13) Ct_NOT_REPORTED)) (
    chk 1764 (let! v14 := deref (CloudGroup_cloudType v12) in Ok (negb (Distance_isReported (ctHt v14)))) (
    chk 1765 (let! v15 := deref (CloudGroup_cloudType v12) in Ok (N.eqb (ctOkt v15) 2%N)) (
    step 1767 ((CloudGroup_parse "SCT016///" RP_METAR md_default)) (fun v16 => 
    chk 1768 (Ok (has_value v16)) (
    step 1769 (deref v16) (fun v17 => 
    chk 1770 (Ok (has_value (CloudGroup_cloudType v17))) (
    chk 1772 (let! v18 := deref (CloudGroup_cloudType v17) in Ok (CtType_beq (ctTp v18) Ct_NOT_REPORTED)) (
    chk 1773 (let! v19 := deref (CloudGroup_cloudType v17) in Ok (Distance_isReported (ctHt v19))) (
    chk 1774 (let! v20 := deref (CloudGroup_cloudType v17) in Ok (DistModifier_beq (distModifier (ctHt v20)) DM_NONE)) (
    chk 1775 (let! v21 := deref (CloudGroup_cloudType v17) in Ok (has_value (Distance_distance (ctHt v21)))) (
    chk 1776 (let! v22 := deref (CloudGroup_cloudType v17) in let! v23 := deref (Distance_distance (ctHt v22)) in Ok (near v23 (dlit (1600) 1) (dlit (1) 2))) (
    chk 1777 (let! v24 := deref (CloudGroup_cloudType v17) in Ok (DistUnit_beq (distUnit (ctHt v24)) FEET)) (
    chk 1778 (let! v25 := deref (CloudGroup_cloudType v17) in Ok (N.eqb (ctOkt v25) 4%N)) (
    None))))))))))))))))))))))))))))).

Definition t_CloudGroup_cloudTypeCloudLayerVariable : option N :=
    step 1782 ((CloudGroup_parse "FEW016" RP_RMK md_default)) (fun v1 => 
    chk 1783 (Ok (has_value v1)) (
    chk 1784 (let! v2 := deref v1 in Ok (ClType_beq (cl_tp v2) Cl_CLOUD_LAYER)) (
    step 1785 (let! v3 := deref v1 in CloudGroup_append v3 "V" RP_RMK md_default) (fun p => let v4 := Some (fst p) in let v5 := snd p in 
    chk 1785 (Ok (AppendResult_beq v5 APPENDED)) (
    step 1786 (let! v6 := deref v4 in CloudGroup_append v6 "SCT" RP_RMK md_default) (fun p => let v7 := Some (fst p) in let v8 := snd p in 
    chk 1786 (Ok (AppendResult_beq v8 APPENDED)) (
    step 1787 (deref v7) (fun v9 => 
    chk 1788 (Ok (has_value (CloudGroup_cloudType v9))) (
    chk 1790 (let! v10 := deref (CloudGroup_cloudType v9) in Ok (CtType_beq (ctTp v10) Ct_NOT_REPORTED)) (
    chk 1791 (let! v11 := deref (CloudGroup_cloudType v9) in Ok (Distance_isReported (ctHt v11))) (
    chk 1792 (let! v12 := deref (CloudGroup_cloudType v9) in Ok (DistModifier_beq (distModifier (ctHt v12)) DM_NONE)) (
    chk 1793 (let! v13 := deref (CloudGroup_cloudType v9) in Ok (has_value (Distance_distance (ctHt v13)))) (
    chk 1794 (let! v14 := deref (CloudGroup_cloudType v9) in let! v15 := deref (Distance_distance (ctHt v14)) in Ok (near v15 (dlit (1600) 1) (dlit (1) 2))) (
    chk 1795 (let! v16 := deref (CloudGroup_cloudType v9) in Ok (DistUnit_beq (distUnit (ctHt v16)) FEET)) (
    chk 1796 (let! v17 := deref (CloudGroup_cloudType v9) in Ok (N.eqb (ctOkt v17) 4%N)) (
    step 1798 ((CloudGroup_parse "SCT" RP_RMK md_default)) (fun v18 => 
    chk 1799 (Ok (has_value v18)) (
    step 1800 (let! v19 := deref v18 in CloudGroup_append v19 "V" RP_RMK md_default) (fun p => let v20 := Some (fst p) in let v21 := snd p in 
    chk 1800 (Ok (AppendResult_beq v21 APPENDED)) (
    step 1801 (let! v22 := deref v20 in CloudGroup_append v22 "BKN" RP_RMK md_default) (fun p => let v23 := Some (fst p) in let v24 := snd p in 
    chk 1801 (Ok (AppendResult_beq v24 APPENDED)) (
    step 1802 (deref v23) (fun v25 => 
    chk 1803 (Ok (has_value (CloudGroup_cloudType v25))) (
    chk 1805 (let! v26 := deref (CloudGroup_cloudType v25) in Ok (CtType_beq (ctTp v26) Ct_NOT_REPORTED)) (
    chk 1806 (let! v27 := deref (CloudGroup_cloudType v25) in Ok (negb (Distance_isReported (ctHt v27)))) (
    chk 1807 (let! v28 := deref (CloudGroup_cloudType v25) in Ok (N.eqb (ctOkt v28) 7%N)) (
    step 1809 ((CloudGroup_parse "BKN" RP_RMK md_default)) (fun v29 => 
    chk 1810 (Ok (has_value v29)) (
    step 1811 (let! v30 := deref v29 in CloudGroup_append v30 "V" RP_RMK md_default) (fun p => let v31 := Some (fst p) in let v32 := snd p in 
    chk 1811 (Ok (AppendResult_beq v32 APPENDED)) (
    step 1812 (let! v33 := deref v31 in CloudGroup_append v33 "OVC" RP_RMK md_default) (fun p => let v34 := Some (fst p) in let v35 := snd p in 
    chk 1812 (Ok (AppendResult_beq v35 APPENDED)) (
    step 1813 (deref v34) (fun v36 => 
    chk 1814 (Ok (has_value (CloudGroup_cloudType v36))) (
    chk 1816 (let! v37 := deref (CloudGroup_cloudType v36) in Ok (CtType_beq (ctTp v37) Ct_NOT_REPORTED)) (
    chk 1817 (let! v38 := deref (CloudGroup_cloudType v36) in Ok (negb (Distance_isReported (ctHt v38)))) (
    chk 1818 (let! v39 := deref (CloudGroup_cloudType v36) in Ok (N.eqb (ctOkt v39) 8%N)) (
    None)))))))))))))))))))))))))))))))))))))).

Definition t_CloudGroup_cloudTypeCeiling : option N :=
    step 1823 ((CloudGroup_parse "CIG" RP_RMK md_default)) (fun v1 => 
    chk 1824 (Ok (has_value v1)) (
    step 1825 (let! v2 := deref v1 in CloudGroup_append v2 "025" RP_RMK md_default) (fun p => let v3 := Some (fst p) in let v4 := snd p in 
    chk 1825 (Ok (AppendResult_beq v4 APPENDED)) (
    step 1826 (let! v5 := deref v3 in CloudGroup_append v5 "" RP_RMK md_default) (fun p => let v6 := Some (fst p) in let v7 := snd p in 
    chk 1826 (Ok (AppendResult_beq v7 NOT_APPENDED)) (
    step 1827 (deref v6) (fun v8 => 
    chk 1828 (Ok (has_value (CloudGroup_cloudType v8))) (
    chk 1830 (let! v9 := deref (CloudGroup_cloudType v8) in Ok (CtType_beq (ctTp v9) Ct_NOT_REPORTED)) (
    chk 1831 (let! v10 := deref (CloudGroup_cloudType v8) in Ok (Distance_isReported (ctHt v10))) (
    chk 1832 (let! v11 := deref (CloudGroup_cloudType v8) in Ok (DistModifier_beq (distModifier (ctHt v11)) DM_NONE)) (
    chk 1833 (let! v12 := deref (CloudGroup_cloudType v8) in Ok (has_value (Distance_distance (ctHt v12)))) (
    chk 1834 (let! v13 := deref (CloudGroup_cloudType v8) in let! v14 := deref (Distance_distance (ctHt v13)) in Ok (near v14 (dlit (2500) 1) (dlit (1) 2))) (
    chk 1835 (let! v15 := deref (CloudGroup_cloudType v8) in Ok (DistUnit_beq (distUnit (ctHt v15)) FEET)) (
    chk 1836 (let! v16 := deref (CloudGroup_cloudType v8) in Ok (N.eqb (ctOkt v16) 0%N)) (
    step 1838 ((CloudGroup_parse "CIG" RP_RMK md_default)) (fun v17 => 
    chk 1839 (Ok (has_value v17)) (
    step 1840 (let! v18 := deref v17 in CloudGroup_append v18 "025" RP_RMK md_default) (fun p => let v19 := Some (fst p) in let v20 := snd p in 
    chk 1840 (Ok (AppendResult_beq v20 APPENDED)) (
    step 1841 (let! v21 := deref v19 in CloudGroup_append v21 "RWY36" RP_RMK md_default) (fun p => let v22 := Some (fst p) in let v23 := snd p in 
    chk 1841 (Ok (AppendResult_beq v23 APPENDED)) (
    step 1842 (deref v22) (fun v24 => 
    chk 1843 (Ok (has_value (CloudGroup_cloudType v24))) (
    chk 1845 (let! v25 := deref (CloudGroup_cloudType v24) in Ok (CtType_beq (ctTp v25) Ct_NOT_REPORTED)) (
    chk 1846 (let! v26 := deref (CloudGroup_cloudType v24) in Ok (Distance_isReported (ctHt v26))) (
    chk 1847 (let! v27 := deref (CloudGroup_cloudType v24) in Ok (DistModifier_beq (distModifier (ctHt v27)) DM_NONE)) (
    chk 1848 (let! v28 := deref (CloudGroup_cloudType v24) in Ok (has_value (Distance_distance (ctHt v28)))) (
    chk 1849 (let! v29 := deref (CloudGroup_cloudType v24) in let! v30 := deref (Distance_distance (ctHt v29)) in Ok (near v30 (dlit (2500) 1) (dlit (1) 2))) (
    chk 1850 (let! v31 := deref (CloudGroup_cloudType v24) in Ok (DistUnit_beq (distUnit (ctHt v31)) FEET)) (
    chk 1851 (let! v32 := deref (CloudGroup_cloudType v24) in Ok (N.eqb (ctOkt v32) 0%N)) (
    step 1853 ((CloudGroup_parse "CIG" RP_RMK md_default)) (fun v33 => 
    chk 1854 (Ok (has_value v33)) (
    step 1855 (let! v34 := deref v33 in CloudGroup_append v34 "025" RP_RMK md_default) (fun p => let v35 := Some (fst p) in let v36 := snd p in 
    chk 1855 (Ok (AppendResult_beq v36 APPENDED)) (
    step 1856 (let! v37 := deref v35 in CloudGroup_append v37 "SW" RP_RMK md_default) (fun p => let v38 := Some (fst p) in let v39 := snd p in 
    chk 1856 (Ok (AppendResult_beq v39 APPENDED)) (
    step 1857 (deref v38) (fun v40 => 
    chk 1858 (Ok (has_value (CloudGroup_cloudType v40))) (
    chk 1860 (let! v41 := deref (CloudGroup_cloudType v40) in Ok (CtType_beq (ctTp v41) Ct_NOT_REPORTED)) (
    chk 1861 (let! v42 := deref (CloudGroup_cloudType v40) in Ok (Distance_isReported (ctHt v42))) (
    chk 1862 (let! v43 := deref (CloudGroup_cloudType v40) in Ok (DistModifier_beq (distModifier (ctHt v43)) DM_NONE)) (
    chk 1863 (let! v44 := deref (CloudGroup_cloudType v40) in Ok (has_value (Distance_distance (ctHt v44)))) (
    chk 1864 (let! v45 := deref (CloudGroup_cloudType v40) in let! v46 := deref (Distance_distance (ctHt v45)) in Ok (near v46 (dlit (2500) 1) (dlit (1) 2))) (
    chk 1865 (let! v47 := deref (CloudGroup_cloudType v40) in Ok (DistUnit_beq (distUnit (ctHt v47)) FEET)) (
    chk 1866 (let! v48 := deref (CloudGroup_cloudType v40) in Ok (N.eqb (ctOkt v48) 0%N)) (
    None))))))))))))))))))))))))))))))))))))))))))))).

Definition t_CloudGroup_cloudTypeCeilingVariable : option N :=
    step 1870 ((CloudGroup_parse "CIG" RP_RMK md_default)) (fun v1 => 
    chk 1871 (Ok (has_value v1)) (
    step 1872 (let! v2 := deref v1 in CloudGroup_append v2 "012V014" RP_RMK md_default) (fun p => let v3 := Some (fst p) in let v4 := snd p in 
    chk 1872 (Ok (AppendResult_beq v4 APPENDED)) (
    step 1873 (let! v5 := deref v3 in CloudGroup_append v5 "" RP_RMK md_default) (fun p => let v6 := Some (fst p) in let v7 := snd p in 
    chk 1873 (Ok (AppendResult_beq v7 NOT_APPENDED)) (
    step 1874 (deref v6) (fun v8 => 
    chk 1875 (Ok (has_value (CloudGroup_cloudType v8))) (
    chk 1877 (let! v9 := deref (CloudGroup_cloudType v8) in Ok (CtType_beq (ctTp v9) Ct_NOT_REPORTED)) (
    chk 1878 (let! v10 := deref (CloudGroup_cloudType v8) in Ok (Distance_isReported (ctHt v10))) (
    chk 1879 (let! v11 := deref (CloudGroup_cloudType v8) in Ok (DistModifier_beq (distModifier (ctHt v11)) DM_NONE)) (
    chk 1880 (let! v12 := deref (CloudGroup_cloudType v8) in Ok (has_value (Distance_distance (ctHt v12)))) (
    chk 1881 (let! v13 := deref (CloudGroup_cloudType v8) in let! v14 := deref (Distance_distance (ctHt v13)) in Ok (near v14 (dlit (1200) 1) (dlit (1) 2))) (
    chk 1882 (let! v15 := deref (CloudGroup_cloudType v8) in Ok (DistUnit_beq (distUnit (ctHt v15)) FEET)) (
    chk 1883 (let! v16 := deref (CloudGroup_cloudType v8) in Ok (N.eqb (ctOkt v16) 0%N)) (
    step 1885 ((CloudGroup_parse "CIG" RP_RMK md_default)) (fun v17 => 
    chk 1886 (Ok (has_value v17)) (
    step 1887 (let! v18 := deref v17 in CloudGroup_append v18 "012V014" RP_RMK md_default) (fun p => let v19 := Some (fst p) in let v20 := snd p in 
    chk 1887 (Ok (AppendResult_beq v20 APPENDED)) (
    step 1888 (let! v21 := deref v19 in CloudGroup_append v21 "RWY36" RP_RMK md_default) (fun p => let v22 := Some (fst p) in let v23 := snd p in 
    chk 1888 (Ok (AppendResult_beq v23 APPENDED)) (
    step 1889 (deref v22) (fun v24 => 
    chk 1890 (Ok (has_value (CloudGroup_cloudType v24))) (
    chk 1892 (let! v25 := deref (CloudGroup_cloudType v24) in Ok (CtType_beq (ctTp v25) Ct_NOT_REPORTED)) (
    chk 1893 (let! v26 := deref (CloudGroup_cloudType v24) in Ok (Distance_isReported (ctHt v26))) (
    chk 1894 (let! v27 := deref (CloudGroup_cloudType v24) in Ok (DistModifier_beq (distModifier (ctHt v27)) DM_NONE)) (
    chk 1895 (let! v28 := deref (CloudGroup_cloudType v24) in Ok (has_value (Distance_distance (ctHt v28)))) (
    chk 1896 (let! v29 := deref (CloudGroup_cloudType v24) in let! v30 := deref (Distance_distance (ctHt v29)) in Ok (near v30 (dlit (1200) 1) (dlit (1) 2))) (
    chk 1897 (let! v31 := deref (CloudGroup_cloudType v24) in Ok (DistUnit_beq (distUnit (ctHt v31)) FEET)) (
    chk 1898 (let! v32 := deref (CloudGroup_cloudType v24) in Ok (N.eqb (ctOkt v32) 0%N)) (
    step 1900 ((CloudGroup_parse "CIG" RP_RMK md_default)) (fun v33 => 
    chk 1901 (Ok (has_value v33)) (
    step 1902 (let! v34 := deref v33 in CloudGroup_append v34 "012V014" RP_RMK md_default) (fun p => let v35 := Some (fst p) in let v36 := snd p in 
    chk 1902 (Ok (AppendResult_beq v36 APPENDED)) (
    step 1903 (let! v37 := deref v35 in CloudGroup_append v37 "SW" RP_RMK md_default) (fun p => let v38 := Some (fst p) in let v39 := snd p in 
    chk 1903 (Ok (AppendResult_beq v39 APPENDED)) (
    step 1904 (deref v38) (fun v40 => 
    chk 1905 (Ok (has_value (CloudGroup_cloudType v40))) (
    chk 1907 (let! v41 := deref (CloudGroup_cloudType v40) in Ok (CtType_beq (ctTp v41) Ct_NOT_REPORTED)) (
    chk 1908 (let! v42 := deref (CloudGroup_cloudType v40) in Ok (Distance_isReported (ctHt v42))) (
    chk 1909 (let! v43 := deref (CloudGroup_cloudType v40) in Ok (DistModifier_beq (distModifier (ctHt v43)) DM_NONE)) (
    chk 1910 (let! v44 := deref (CloudGroup_cloudType v40) in Ok (has_value (Distance_distance (ctHt v44)))) (
    chk 1911 (let! v45 := deref (CloudGroup_cloudType v40) in let! v46 := deref (Distance_distance (ctHt v45)) in Ok (near v46 (dlit (1200) 1) (dlit (1) 2))) (
    chk 1912 (let! v47 := deref (CloudGroup_cloudType v40) in Ok (DistUnit_beq (distUnit (ctHt v47)) FEET)) (
    chk 1913 (let! v48 := deref (CloudGroup_cloudType v40) in Ok (N.eqb (ctOkt v48) 0%N)) (
    None))))))))))))))))))))))))))))))))))))))))))))).

Definition t_CloudGroup_isValidCloudTypes : option N :=
    step 1922 ((CloudGroup_parse "FEW040" RP_METAR md_default)) (fun v1 => 
    chk 1923 (Ok (has_value v1)) (
    chk 1924 (let! v2 := deref v1 in Ok (CloudGroup_isValid v2)) (
    step 1926 ((CloudGroup_parse "SCT017" RP_METAR md_default)) (fun v3 => 
    chk 1927 (Ok (has_value v3)) (
    chk 1928 (let! v4 := deref v3 in Ok (CloudGroup_isValid v4)) (
    step 1930 ((CloudGroup_parse "BKN026" RP_METAR md_default)) (fun v5 => 
    chk 1931 (Ok (has_value v5)) (
    chk 1932 (let! v6 := deref v5 in Ok (CloudGroup_isValid v6)) (
    step 1934 ((CloudGroup_parse "OVC002" RP_METAR md_default)) (fun v7 => 
    chk 1935 (Ok (has_value v7)) (
    chk 1936 (let! v8 := deref v7 in Ok (CloudGroup_isValid v8)) (
    step 1938 ((CloudGroup_parse "SCT014TCU" RP_METAR md_default)) (fun v9 => 
    chk 1939 (Ok (has_value v9)) (
    chk 1940 (let! v10 := deref v9 in Ok (CloudGroup_isValid v10)) (
    step 1942 ((CloudGroup_parse "SCT014CB" RP_METAR md_default)) (fun v11 => 
    chk 1943 (Ok (has_value v11)) (
    chk 1944 (let! v12 := deref v11 in Ok (CloudGroup_isValid v12)) (
    step 1946 ((CloudGroup_parse "///014" RP_METAR md_default)) (fun v13 => 
    chk 1947 (Ok (has_value v13)) (
    chk 1948 (let! v14 := deref v13 in Ok (CloudGroup_isValid v14)) (
    step 1950 ((CloudGroup_parse "FEW///" RP_METAR md_default)) (fun v15 => 
    chk 1951 (Ok (has_value v15)) (
    chk 1952 (let! v16 := deref v15 in Ok (CloudGroup_isValid v16)) (
    step 1954 ((CloudGroup_parse "SCT014///" RP_METAR md_default)) (fun v17 => 
    chk 1955 (Ok (has_value v17)) (
    chk 1956 (let! v18 := deref v17 in Ok (CloudGroup_isValid v18)) (
    step 1958 ((CloudGroup_parse "BKN000" RP_METAR md_default)) (fun v19 => 
    chk 1959 (Ok (has_value v19)) (
    chk 1960 (let! v20 := deref v19 in Ok (CloudGroup_isValid v20)) (
    None)))))))))))))))))))))))))))))).

Definition t_CloudGroup_isValidVertVisibility : option N :=
    step 1964 ((CloudGroup_parse "VV001" RP_METAR md_default)) (fun v1 => 
    chk 1965 (Ok (has_value v1)) (
    chk 1966 (let! v2 := deref v1 in Ok (CloudGroup_isValid v2)) (
    step 1968 ((CloudGroup_parse "VV000" RP_METAR md_default)) (fun v3 => 
    chk 1969 (Ok (has_value v3)) (
    chk 1970 (let! v4 := deref v3 in Ok (CloudGroup_isValid v4)) (
    step 1972 ((CloudGroup_parse "VV///" RP_METAR md_default)) (fun v5 => 
    chk 1973 (Ok (has_value v5)) (
    chk 1974 (let! v6 := deref v5 in Ok (CloudGroup_isValid v6)) (
    None))))))))).

Definition t_CloudGroup_isValidNoClouds : option N :=
    step 1978 ((CloudGroup_parse "CLR" RP_METAR md_default)) (fun v1 => 
    chk 1979 (Ok (has_value v1)) (
    chk 1980 (let! v2 := deref v1 in Ok (CloudGroup_isValid v2)) (
    step 1982 ((CloudGroup_parse "SKC" RP_METAR md_default)) (fun v3 => 
    chk 1983 (Ok (has_value v3)) (
    chk 1984 (let! v4 := deref v3 in Ok (CloudGroup_isValid v4)) (
    step 1986 ((CloudGroup_parse "NCD" RP_METAR md_default)) (fun v5 => 
    chk 1987 (Ok (has_value v5)) (
    chk 1988 (let! v6 := deref v5 in Ok (CloudGroup_isValid v6)) (
    step 1990 ((CloudGroup_parse "NSC" RP_METAR md_default)) (fun v7 => 
    chk 1991 (Ok (has_value v7)) (
    chk 1992 (let! v8 := deref v7 in Ok (CloudGroup_isValid v8)) (
    None)))))))))))).

Definition t_CloudGroup_isValidVariableCloudLayer : option N :=
    step 1996 ((CloudGroup_parse "FEW016" RP_RMK md_default)) (fun v1 => 
    chk 1997 (Ok (has_value v1)) (
    step 1998 (let! v2 := deref v1 in CloudGroup_append v2 "V" RP_RMK md_default) (fun p => let v3 := Some (fst p) in let v4 := snd p in 
    chk 1998 (Ok (AppendResult_beq v4 APPENDED)) (
    step 1999 (let! v5 := deref v3 in CloudGroup_append v5 "SCT" RP_RMK md_default) (fun p => let v6 := Some (fst p) in let v7 := snd p in 
    chk 1999 (Ok (AppendResult_beq v7 APPENDED)) (
    chk 2000 (let! v8 := deref v6 in Ok (CloudGroup_isValid v8)) (
    step 2002 ((CloudGroup_parse "SCT016" RP_RMK md_default)) (fun v9 => 
    chk 2003 (Ok (has_value v9)) (
    step 2004 (let! v10 := deref v9 in CloudGroup_append v10 "V" RP_RMK md_default) (fun p => let v11 := Some (fst p) in let v12 := snd p in 
    chk 2004 (Ok (AppendResult_beq v12 APPENDED)) (
    step 2005 (let! v13 := deref v11 in CloudGroup_append v13 "BKN" RP_RMK md_default) (fun p => let v14 := Some (fst p) in let v15 := snd p in 
    chk 2005 (Ok (AppendResult_beq v15 APPENDED)) (
    chk 2006 (let! v16 := deref v14 in Ok (CloudGroup_isValid v16)) (
    step 2008 ((CloudGroup_parse "BKN016" RP_RMK md_default)) (fun v17 => 
    chk 2009 (Ok (has_value v17)) (
    chk 2010 (let! v18 := deref v17 in Ok (ClType_beq (cl_tp v18) Cl_CLOUD_LAYER)) (
    step 2011 (let! v19 := deref v17 in CloudGroup_append v19 "V" RP_RMK md_default) (fun p => let v20 := Some (fst p) in let v21 := snd p in 
    chk 2011 (Ok (AppendResult_beq v21 APPENDED)) (
    step 2012 (let! v22 := deref v20 in CloudGroup_append v22 "OVC" RP_RMK md_default) (fun p => let v23 := Some (fst p) in let v24 := snd p in 
    chk 2012 (Ok (AppendResult_beq v24 APPENDED)) (
    chk 2013 (let! v25 := deref v23 in Ok (CloudGroup_isValid v25)) (
    step 2015 ((CloudGroup_parse "FEW" RP_RMK md_default)) (fun v26 => 
    chk 2016 (Ok (has_value v26)) (
    step 2017 (let! v27 := deref v26 in CloudGroup_append v27 "V" RP_RMK md_default) (fun p => let v28 := Some (fst p) in let v29 := snd p in 
    chk 2017 (Ok (AppendResult_beq v29 APPENDED)) (
    step 2018 (let! v30 := deref v28 in CloudGroup_append v30 "SCT" RP_RMK md_default) (fun p => let v31 := Some (fst p) in let v32 := snd p in 
    chk 2018 (Ok (AppendResult_beq v32 APPENDED)) (
    chk 2019 (let! v33 := deref v31 in Ok (CloudGroup_isValid v33)) (
    step 2021 ((CloudGroup_parse "SCT" RP_RMK md_default)) (fun v34 => 
    chk 2022 (Ok (has_value v34)) (
    step 2023 (let! v35 := deref v34 in CloudGroup_append v35 "V" RP_RMK md_default) (fun p => let v36 := Some (fst p) in let v37 := snd p in 
    chk 2023 (Ok (AppendResult_beq v37 APPENDED)) (
    step 2024 (let! v38 := deref v36 in CloudGroup_append v38 "BKN" RP_RMK md_default) (fun p => let v39 := Some (fst p) in let v40 := snd p in 
    chk 2024 (Ok (AppendResult_beq v40 APPENDED)) (
    chk 2025 (let! v41 := deref v39 in Ok (CloudGroup_isValid v41)) (
    step 2027 ((CloudGroup_parse "BKN" RP_RMK md_default)) (fun v42 => 
    chk 2028 (Ok (has_value v42)) (
    step 2029 (let! v43 := deref v42 in CloudGroup_append v43 "V" RP_RMK md_default) (fun p => let v44 := Some (fst p) in let v45 := snd p in 
    chk 2029 (Ok (AppendResult_beq v45 APPENDED)) (
    step 2030 (let! v46 := deref v44 in CloudGroup_append v46 "OVC" RP_RMK md_default) (fun p => let v47 := Some (fst p) in let v48 := snd p in 
    chk 2030 (Ok (AppendResult_beq v48 APPENDED)) (
    chk 2031 (let! v49 := deref v47 in Ok (CloudGroup_isValid v49)) (
    None))))))))))))))))))))))))))))))))))))))))))).

Definition t_CloudGroup_isValidCeilingValidRunway : option N :=
    step 2035 ((CloudGroup_parse "CIG" RP_RMK md_default)) (fun v1 => 
    chk 2036 (Ok (has_value v1)) (
    step 2037 (let! v2 := deref v1 in CloudGroup_append v2 "025" RP_RMK md_default) (fun p => let v3 := Some (fst p) in let v4 := snd p in 
    chk 2037 (Ok (AppendResult_beq v4 APPENDED)) (
    step 2038 (let! v5 := deref v3 in CloudGroup_append v5 "RWY36" RP_RMK md_default) (fun p => let v6 := Some (fst p) in let v7 := snd p in 
    chk 2038 (Ok (AppendResult_beq v7 APPENDED)) (
    chk 2039 (let! v8 := deref v6 in Ok (CloudGroup_isValid v8)) (
    step 2041 ((CloudGroup_parse "CIG" RP_RMK md_default)) (fun v9 => 
    chk 2042 (Ok (has_value v9)) (
    step 2043 (let! v10 := deref v9 in CloudGroup_append v10 "012V014" RP_RMK md_default) (fun p => let v11 := Some (fst p) in let v12 := snd p in 
    chk 2043 (Ok (AppendResult_beq v12 APPENDED)) (
    step 2044 (let! v13 := deref v11 in CloudGroup_append v13 "RWY36" RP_RMK md_default) (fun p => let v14 := Some (fst p) in let v15 := snd p in 
    chk 2044 (Ok (AppendResult_beq v15 APPENDED)) (
    chk 2045 (let! v16 := deref v14 in Ok (CloudGroup_isValid v16)) (
    None)))))))))))))).

Definition t_CloudGroup_isValidCeilingWrongRunway : option N :=
    step 2049 ((CloudGroup_parse "CIG" RP_RMK md_default)) (fun v1 => 
    chk 2050 (Ok (has_value v1)) (
    step 2051 (let! v2 := deref v1 in CloudGroup_append v2 "025" RP_RMK md_default) (fun p => let v3 := Some (fst p) in let v4 := snd p in 
    chk 2051 (Ok (AppendResult_beq v4 APPENDED)) (
    step 2052 (let! v5 := deref v3 in CloudGroup_append v5 "RWY37" RP_RMK md_default) (fun p => let v6 := Some (fst p) in let v7 := snd p in 
    chk 2052 (Ok (AppendResult_beq v7 APPENDED)) (
    chk 2053 (let! v8 := deref v6 in Ok (negb (CloudGroup_isValid v8))) (
    step 2055 ((CloudGroup_parse "CIG" RP_RMK md_default)) (fun v9 => 
    chk 2056 (Ok (has_value v9)) (
    step 2057 (let! v10 := deref v9 in CloudGroup_append v10 "012V014" RP_RMK md_default) (fun p => let v11 := Some (fst p) in let v12 := snd p in 
    chk 2057 (Ok (AppendResult_beq v12 APPENDED)) (
    step 2058 (let! v13 := deref v11 in CloudGroup_append v13 "RWY37" RP_RMK md_default) (fun p => let v14 := Some (fst p) in let v15 := snd p in 
    chk 2058 (Ok (AppendResult_beq v15 APPENDED)) (
    chk 2059 (let! v16 := deref v14 in Ok (negb (CloudGroup_isValid v16))) (
    None)))))))))))))).

Definition t_CloudGroup_isValidCeilingNoDetails : option N :=
    step 2063 ((CloudGroup_parse "CIG" RP_RMK md_default)) (fun v1 => 
    chk 2064 (Ok (has_value v1)) (
    step 2065 (let! v2 := deref v1 in CloudGroup_append v2 "025" RP_RMK md_default) (fun p => let v3 := Some (fst p) in let v4 := snd p in 
    chk 2065 (Ok (AppendResult_beq v4 APPENDED)) (
    step 2066 (let! v5 := deref v3 in CloudGroup_append v5 "" RP_RMK md_default) (fun p => let v6 := Some (fst p) in let v7 := snd p in 
    chk 2066 (Ok (AppendResult_beq v7 NOT_APPENDED)) (
    chk 2067 (let! v8 := deref v6 in Ok (CloudGroup_isValid v8)) (
    step 2069 ((CloudGroup_parse "CIG" RP_RMK md_default)) (fun v9 => 
    chk 2070 (Ok (has_value v9)) (
    step 2071 (let! v10 := deref v9 in CloudGroup_append v10 "012V014" RP_RMK md_default) (fun p => let v11 := Some (fst p) in let v12 := snd p in 
    chk 2071 (Ok (AppendResult_beq v12 APPENDED)) (
    step 2072 (let! v13 := deref v11 in CloudGroup_append v13 "" RP_RMK md_default) (fun p => let v14 := Some (fst p) in let v15 := snd p in 
    chk 2072 (Ok (AppendResult_beq v15 NOT_APPENDED)) (
    chk 2073 (let! v16 := deref v14 in Ok (CloudGroup_isValid v16)) (
    None)))))))))))))).

Definition t_CloudGroup_isValidCeilingDirection : option N :=
    step 2077 ((CloudGroup_parse "CIG" RP_RMK md_default)) (fun v1 => 
    step 2078 (let! v2 := deref v1 in CloudGroup_append v2 "025" RP_RMK md_default) (fun p => let v3 := Some (fst p) in let v4 := snd p in 
    chk 2078 (Ok (AppendResult_beq v4 APPENDED)) (
    step 2079 (let! v5 := deref v3 in CloudGroup_append v5 "W" RP_RMK md_default) (fun p => let v6 := Some (fst p) in let v7 := snd p in 
    chk 2079 (Ok (AppendResult_beq v7 APPENDED)) (
    chk 2080 (let! v8 := deref v6 in Ok (CloudGroup_isValid v8)) (
    step 2082 ((CloudGroup_parse "CIG" RP_RMK md_default)) (fun v9 => 
    chk 2083 (Ok (has_value v9)) (
    step 2084 (let! v10 := deref v9 in CloudGroup_append v10 "012V014" RP_RMK md_default) (fun p => let v11 := Some (fst p) in let v12 := snd p in 
    chk 2084 (Ok (AppendResult_beq v12 APPENDED)) (
    step 2085 (let! v13 := deref v11 in CloudGroup_append v13 "W" RP_RMK md_default) (fun p => let v14 := Some (fst p) in let v15 := snd p in 
    chk 2085 (Ok (AppendResult_beq v15 APPENDED)) (
    chk 2086 (let! v16 := deref v14 in Ok (CloudGroup_isValid v16)) (
    None))))))))))))).

Definition t_CloudGroup_isValidChinoValidRunway : option N :=
    step 2090 ((CloudGroup_parse "CHINO" RP_RMK md_default)) (fun v1 => 
    chk 2091 (Ok (has_value v1)) (
    step 2092 (let! v2 := deref v1 in CloudGroup_append v2 "RWY36" RP_RMK md_default) (fun p => let v3 := Some (fst p) in let v4 := snd p in 
    chk 2092 (Ok (AppendResult_beq v4 APPENDED)) (
    chk 2093 (let! v5 := deref v3 in Ok (CloudGroup_isValid v5)) (
    None))))).

Definition t_CloudGroup_isValidChinoWrongRunway : option N :=
    step 2097 ((CloudGroup_parse "CHINO" RP_RMK md_default)) (fun v1 => 
    chk 2098 (Ok (has_value v1)) (
    step 2099 (let! v2 := deref v1 in CloudGroup_append v2 "RWY37" RP_RMK md_default) (fun p => let v3 := Some (fst p) in let v4 := snd p in 
    chk 2099 (Ok (AppendResult_beq v4 APPENDED)) (
    chk 2100 (let! v5 := deref v3 in Ok (negb (CloudGroup_isValid v5))) (
    None))))).

Definition t_CloudGroup_isValidChinoNoDetails : option N :=
    step 2104 ((CloudGroup_parse "CHINO" RP_RMK md_default)) (fun v1 => 
    chk 2105 (Ok (has_value v1)) (
    step 2106 (let! v2 := deref v1 in CloudGroup_append v2 "" RP_RMK md_default) (fun p => let v3 := Some (fst p) in let v4 := snd p in 
    chk 2106 (Ok (AppendResult_beq v4 NOT_APPENDED)) (
    chk 2107 (let! v5 := deref v3 in Ok (CloudGroup_isValid v5)) (
    None))))).

Definition t_CloudGroup_isValidChinoDirection : option N :=
    step 2111 ((CloudGroup_parse "CHINO" RP_RMK md_default)) (fun v1 => 
    chk 2112 (Ok (has_value v1)) (
    step 2113 (let! v2 := deref v1 in CloudGroup_append v2 "NW" RP_RMK md_default) (fun p => let v3 := Some (fst p) in let v4 := snd p in 
    chk 2113 (Ok (AppendResult_beq v4 APPENDED)) (
    chk 2114 (let! v5 := deref v3 in Ok (CloudGroup_isValid v5)) (
    None))))).

Definition t_CloudGroup_isValidCldMisg : option N :=
    step 2118 ((CloudGroup_parse "CLD" RP_RMK md_default)) (fun v1 => 
    chk 2119 (Ok (has_value v1)) (
    step 2120 (let! v2 := deref v1 in CloudGroup_append v2 "MISG" RP_RMK md_default) (fun p => let v3 := Some (fst p) in let v4 := snd p in 
    chk 2120 (Ok (AppendResult_beq v4 APPENDED)) (
    chk 2121 (let! v5 := deref v3 in Ok (CloudGroup_isValid v5)) (
    None))))).

Example tests_cloudgroup_pass : failures
  [("CloudGroup_parseCloudLayerMetar", t_CloudGroup_parseCloudLayerMetar);
   ("CloudGroup_parseCloudLayerTaf", t_CloudGroup_parseCloudLayerTaf);
   ("CloudGroup_parseCloudLayerFew", t_CloudGroup_parseCloudLayerFew);
   ("CloudGroup_parseCloudLayerScattered", t_CloudGroup_parseCloudLayerScattered);
   ("CloudGroup_parseCloudLayerBroken", t_CloudGroup_parseCloudLayerBroken);
   ("CloudGroup_parseCloudLayerOvercast", t_CloudGroup_parseCloudLayerOvercast);
   ("CloudGroup_parseCloudLayerToweringCumulus", t_CloudGroup_parseCloudLayerToweringCumulus);
   ("CloudGroup_parseCloudLayerCumulonimbus", t_CloudGroup_parseCloudLayerCumulonimbus);
   ("CloudGroup_parseCloudLayerConvectiveTypeNotReported", t_CloudGroup_parseCloudLayerConvectiveTypeNotReported);
   ("CloudGroup_parseCloudLayerAmountAndTypeNotReported", t_CloudGroup_parseCloudLayerAmountAndTypeNotReported);
   ("CloudGroup_parseCloudLayerAmountAndHeightNotReported", t_CloudGroup_parseCloudLayerAmountAndHeightNotReported);
   ("CloudGroup_parseCloudLayerNotReported", t_CloudGroup_parseCloudLayerNotReported);
   ("CloudGroup_parseCloudLayerWrongReportPart", t_CloudGroup_parseCloudLayerWrongReportPart);
   ("CloudGroup_parseCloudLayerWrongFormat", t_CloudGroup_parseCloudLayerWrongFormat);
   ("CloudGroup_appendNonVariableCloudLayer", t_CloudGroup_appendNonVariableCloudLayer);
   ("CloudGroup_parseVerticalVisibilityMetar", t_CloudGroup_parseVerticalVisibilityMetar);
   ("CloudGroup_parseVerticalVisibilityTaf", t_CloudGroup_parseVerticalVisibilityTaf);
   ("CloudGroup_parseVerticalVisibilityZero", t_CloudGroup_parseVerticalVisibilityZero);
   ("CloudGroup_parseVerticalVisibilityNotReported", t_CloudGroup_parseVerticalVisibilityNotReported);
   ("CloudGroup_parseVerticalVisibilityWrongReportPart", t_CloudGroup_parseVerticalVisibilityWrongReportPart);
   ("CloudGroup_parseVerticalVisibilityWrongFormat", t_CloudGroup_parseVerticalVisibilityWrongFormat);
   ("CloudGroup_parseVariableCloudCoverWithHeight", t_CloudGroup_parseVariableCloudCoverWithHeight);
   ("CloudGroup_parseVariableCloudCoverWithoutHeight", t_CloudGroup_parseVariableCloudCoverWithoutHeight);
   ("CloudGroup_parseVariableCloudCoverWrongReportPart", t_CloudGroup_parseVariableCloudCoverWrongReportPart);
   ("CloudGroup_parseVariableCloudCoverWrongFormatFirstCover", t_CloudGroup_parseVariableCloudCoverWrongFormatFirstCover);
   ("CloudGroup_parseVariableCloudCoverWrongFormatV", t_CloudGroup_parseVariableCloudCoverWrongFormatV);
   ("CloudGroup_parseVariableCloudCoverWrongFormatSecondCover", t_CloudGroup_parseVariableCloudCoverWrongFormatSecondCover);
   ("CloudGroup_parseVariableCloudCoverWrongCombinationsFew", t_CloudGroup_parseVariableCloudCoverWrongCombinationsFew);
   ("CloudGroup_parseVariableCloudCoverWrongCombinationsSct", t_CloudGroup_parseVariableCloudCoverWrongCombinationsSct);
   ("CloudGroup_parseVariableCloudCoverWrongCombinationsBkn", t_CloudGroup_parseVariableCloudCoverWrongCombinationsBkn);
   ("CloudGroup_parseVariableCloudCoverWrongCombinationsOvc", t_CloudGroup_parseVariableCloudCoverWrongCombinationsOvc);
   ("CloudGroup_parseClr", t_CloudGroup_parseClr);
   ("CloudGroup_parseSkc", t_CloudGroup_parseSkc);
   ("CloudGroup_parseNcd", t_CloudGroup_parseNcd);
   ("CloudGroup_parseNsc", t_CloudGroup_parseNsc);
   ("CloudGroup_parseNoCloudWrongReportPart", t_CloudGroup_parseNoCloudWrongReportPart);
   ("CloudGroup_parseCeilingNoDetails", t_CloudGroup_parseCeilingNoDetails);
   ("CloudGroup_parseCeilingDirection", t_CloudGroup_parseCeilingDirection);
   ("CloudGroup_parseCeilingRunway", t_CloudGroup_parseCeilingRunway);
   ("CloudGroup_parseVariableCeilingNoDetails", t_CloudGroup_parseVariableCeilingNoDetails);
   ("CloudGroup_parseVariableCeilingRunway", t_CloudGroup_parseVariableCeilingRunway);
   ("CloudGroup_parseVariableCeilingDirection", t_CloudGroup_parseVariableCeilingDirection);
   ("CloudGroup_ceilingAppendWrongGroupCig", t_CloudGroup_ceilingAppendWrongGroupCig);
   ("CloudGroup_ceilingAppendWrongGroupCigValue", t_CloudGroup_ceilingAppendWrongGroupCigValue);
   ("CloudGroup_ceilingAppendWrongGroupCigVariable", t_CloudGroup_ceilingAppendWrongGroupCigVariable);
   ("CloudGroup_ceilingAppendToCompleteGroups", t_CloudGroup_ceilingAppendToCompleteGroups);
   ("CloudGroup_parseCeilingWrongReportPart", t_CloudGroup_parseCeilingWrongReportPart);
   ("CloudGroup_parseChinoNoDetails", t_CloudGroup_parseChinoNoDetails);
   ("CloudGroup_parseChinoRunway", t_CloudGroup_parseChinoRunway);
   ("CloudGroup_parseChinoDirection", t_CloudGroup_parseChinoDirection);
   ("CloudGroup_parseChinoWrongReportPart", t_CloudGroup_parseChinoWrongReportPart);
   ("CloudGroup_chinoAppendToCompleteGroup", t_CloudGroup_chinoAppendToCompleteGroup);
   ("CloudGroup_chinoAppendWrongGroup", t_CloudGroup_chinoAppendWrongGroup);
   ("CloudGroup_parseCldMisg", t_CloudGroup_parseCldMisg);
   ("CloudGroup_parseCldAndOther", t_CloudGroup_parseCldAndOther);
   ("CloudGroup_parseMisg", t_CloudGroup_parseMisg);
   ("CloudGroup_parseObscurationGroundBased", t_CloudGroup_parseObscurationGroundBased);
   ("CloudGroup_parseObscurationAloft", t_CloudGroup_parseObscurationAloft);
   ("CloudGroup_parseObscurationFew", t_CloudGroup_parseObscurationFew);
   ("CloudGroup_parseObscurationScattered", t_CloudGroup_parseObscurationScattered);
   ("CloudGroup_parseObscurationBroken", t_CloudGroup_parseObscurationBroken);
   ("CloudGroup_parseObscurationOvercast", t_CloudGroup_parseObscurationOvercast);
   ("CloudGroup_parseObscurationBlowingSnow", t_CloudGroup_parseObscurationBlowingSnow);
   ("CloudGroup_parseObscurationBlowingDust", t_CloudGroup_parseObscurationBlowingDust);
   ("CloudGroup_parseObscurationBlowingSand", t_CloudGroup_parseObscurationBlowingSand);
   ("CloudGroup_parseObscurationFog", t_CloudGroup_parseObscurationFog);
   ("CloudGroup_parseObscurationSmoke", t_CloudGroup_parseObscurationSmoke);
   ("CloudGroup_parseObscurationVolcanicAsh", t_CloudGroup_parseObscurationVolcanicAsh);
   ("CloudGroup_cloudTypeNoClouds", t_CloudGroup_cloudTypeNoClouds);
   ("CloudGroup_cloudTypeVerticalVisibility", t_CloudGroup_cloudTypeVerticalVisibility);
   ("CloudGroup_cloudTypeChino", t_CloudGroup_cloudTypeChino);
   ("CloudGroup_cloudTypeCldMisg", t_CloudGroup_cloudTypeCldMisg);
   ("CloudGroup_cloudTypeCloudLayer", t_CloudGroup_cloudTypeCloudLayer);
   ("CloudGroup_cloudTypeCloudLayerType", t_CloudGroup_cloudTypeCloudLayerType);
   ("CloudGroup_cloudTypeCloudLayerNotReported", t_CloudGroup_cloudTypeCloudLayerNotReported);
   ("CloudGroup_cloudTypeCloudLayerVariable", t_CloudGroup_cloudTypeCloudLayerVariable);
   ("CloudGroup_cloudTypeCeiling", t_CloudGroup_cloudTypeCeiling);
   ("CloudGroup_cloudTypeCeilingVariable", t_CloudGroup_cloudTypeCeilingVariable);
   ("CloudGroup_isValidCloudTypes", t_CloudGroup_isValidCloudTypes);
   ("CloudGroup_isValidVertVisibility", t_CloudGroup_isValidVertVisibility);
   ("CloudGroup_isValidNoClouds", t_CloudGroup_isValidNoClouds);
   ("CloudGroup_isValidVariableCloudLayer", t_CloudGroup_isValidVariableCloudLayer);
   ("CloudGroup_isValidCeilingValidRunway", t_CloudGroup_isValidCeilingValidRunway);
   ("CloudGroup_isValidCeilingWrongRunway", t_CloudGroup_isValidCeilingWrongRunway);
   ("CloudGroup_isValidCeilingNoDetails", t_CloudGroup_isValidCeilingNoDetails);
   ("CloudGroup_isValidCeilingDirection", t_CloudGroup_isValidCeilingDirection);
   ("CloudGroup_isValidChinoValidRunway", t_CloudGroup_isValidChinoValidRunway);
   ("CloudGroup_isValidChinoWrongRunway", t_CloudGroup_isValidChinoWrongRunway);
   ("CloudGroup_isValidChinoNoDetails", t_CloudGroup_isValidChinoNoDetails);
   ("CloudGroup_isValidChinoDirection", t_CloudGroup_isValidChinoDirection);
   ("CloudGroup_isValidCldMisg", t_CloudGroup_isValidCldMisg)] = [].
Proof. vm_compute. reflexivity. Qed.
