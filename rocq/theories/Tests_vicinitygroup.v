(** Generated by tools/gen_tests.py from /repo/test/test_vicinitygroup.cpp: the project's own unit tests, run
    against the model. These are tests of the model's fidelity, not properties. *)

From Verif Require Import Prim Regex Float Values Weather Groups1 Groups2 Groups3 Groups4 Parser TestLib.
Local Open Scope string_scope.
Local Open Scope bool_scope.

Definition t_VicinityGroup_parseCB_N : option N :=
    step 20 ((VicinityGroup_parse "CB" RP_RMK md_default)) (fun v1 => 
    chk 21 (Ok (has_value v1)) (
    step 23 (let! v2 := deref v1 in VicinityGroup_append v2 "N" RP_RMK md_default) (fun p => let v3 := Some (fst p) in let v4 := snd p in 
    chk 23 (Ok (AppendResult_beq v4 APPENDED)) (
    step 24 (let! v5 := deref v3 in VicinityGroup_append v5 "" RP_RMK md_default) (fun p => let v6 := Some (fst p) in let v7 := snd p in 
    chk 24 (Ok (AppendResult_beq v7 NOT_APPENDED)) (
    chk 26 (let! v8 := deref v6 in Ok (VcType_beq (vc_t v8) Vc_CUMULONIMBUS)) (
    chk 27 (let! v9 := deref v6 in Ok (DistModifier_beq (distModifier (vc_dist v9)) DM_NONE)) (
    chk 28 (let! v10 := deref v6 in Ok (negb (Distance_isReported (vc_dist v10)))) (
    chk 29 (let! v11 := deref v6 in Ok (Cardinal_beq (Direction_cardinal (vc_movDir v11) false) Cd_NOT_REPORTED)) (
    chk 30 (let! v12 := deref v6 in let! v13 := (VicinityGroup_directions v12) in Ok (N.eqb (N.of_nat (List.length v13)) 1%N)) (
    chk 31 (let! v14 := deref v6 in let! v15 := (VicinityGroup_directions v14) in let! v16 := deref (List.nth_error v15 0%nat) in Ok (Cardinal_beq (Direction_cardinal v16 false) Cd_N)) (
    chk 32 (let! v17 := deref v6 in Ok (VicinityGroup_isValid v17)) (
    None))))))))))))).

Definition t_VicinityGroup_parseCBMAM_N : option N :=
    step 36 ((VicinityGroup_parse "CBMAM" RP_RMK md_default)) (fun v1 => 
    chk 37 (Ok (has_value v1)) (
    step 39 (let! v2 := deref v1 in VicinityGroup_append v2 "N" RP_RMK md_default) (fun p => let v3 := Some (fst p) in let v4 := snd p in 
    chk 39 (Ok (AppendResult_beq v4 APPENDED)) (
    step 40 (let! v5 := deref v3 in VicinityGroup_append v5 "" RP_RMK md_default) (fun p => let v6 := Some (fst p) in let v7 := snd p in 
    chk 40 (Ok (AppendResult_beq v7 NOT_APPENDED)) (
    chk 42 (let! v8 := deref v6 in Ok (VcType_beq (vc_t v8) Vc_CUMULONIMBUS_MAMMATUS)) (
    chk 43 (let! v9 := deref v6 in Ok (DistModifier_beq (distModifier (vc_dist v9)) DM_NONE)) (
    chk 44 (let! v10 := deref v6 in Ok (negb (Distance_isReported (vc_dist v10)))) (
    chk 45 (let! v11 := deref v6 in Ok (Cardinal_beq (Direction_cardinal (vc_movDir v11) false) Cd_NOT_REPORTED)) (
    chk 46 (let! v12 := deref v6 in let! v13 := (VicinityGroup_directions v12) in Ok (N.eqb (N.of_nat (List.length v13)) 1%N)) (
    chk 47 (let! v14 := deref v6 in let! v15 := (VicinityGroup_directions v14) in let! v16 := deref (List.nth_error v15 0%nat) in Ok (Cardinal_beq (Direction_cardinal v16 false) Cd_N)) (
    chk 48 (let! v17 := deref v6 in Ok (VicinityGroup_isValid v17)) (
    None))))))))))))).

Definition t_VicinityGroup_parseTS_N : option N :=
    step 52 ((VicinityGroup_parse "TS" RP_RMK md_default)) (fun v1 => 
    chk 53 (Ok (has_value v1)) (
    step 55 (let! v2 := deref v1 in VicinityGroup_append v2 "N" RP_RMK md_default) (fun p => let v3 := Some (fst p) in let v4 := snd p in 
    chk 55 (Ok (AppendResult_beq v4 APPENDED)) (
    step 56 (let! v5 := deref v3 in VicinityGroup_append v5 "" RP_RMK md_default) (fun p => let v6 := Some (fst p) in let v7 := snd p in 
    chk 56 (Ok (AppendResult_beq v7 NOT_APPENDED)) (
    chk 58 (let! v8 := deref v6 in Ok (VcType_beq (vc_t v8) Vc_THUNDERSTORM)) (
    chk 59 (let! v9 := deref v6 in Ok (DistModifier_beq (distModifier (vc_dist v9)) DM_NONE)) (
    chk 60 (let! v10 := deref v6 in Ok (negb (Distance_isReported (vc_dist v10)))) (
    chk 61 (let! v11 := deref v6 in Ok (Cardinal_beq (Direction_cardinal (vc_movDir v11) false) Cd_NOT_REPORTED)) (
    chk 62 (let! v12 := deref v6 in let! v13 := (VicinityGroup_directions v12) in Ok (N.eqb (N.of_nat (List.length v13)) 1%N)) (
    chk 63 (let! v14 := deref v6 in let! v15 := (VicinityGroup_directions v14) in let! v16 := deref (List.nth_error v15 0%nat) in Ok (Cardinal_beq (Direction_cardinal v16 false) Cd_N)) (
    chk 64 (let! v17 := deref v6 in Ok (VicinityGroup_isValid v17)) (
    None))))))))))))).

Definition t_VicinityGroup_parseTCU_N : option N :=
    step 68 ((VicinityGroup_parse "TCU" RP_RMK md_default)) (fun v1 => 
    chk 69 (Ok (has_value v1)) (
    step 71 (let! v2 := deref v1 in VicinityGroup_append v2 "N" RP_RMK md_default) (fun p => let v3 := Some (fst p) in let v4 := snd p in 
    chk 71 (Ok (AppendResult_beq v4 APPENDED)) (
    step 72 (let! v5 := deref v3 in VicinityGroup_append v5 "" RP_RMK md_default) (fun p => let v6 := Some (fst p) in let v7 := snd p in 
    chk 72 (Ok (AppendResult_beq v7 NOT_APPENDED)) (
    chk 74 (let! v8 := deref v6 in Ok (VcType_beq (vc_t v8) Vc_TOWERING_CUMULUS)) (
    chk 75 (let! v9 := deref v6 in Ok (DistModifier_beq (distModifier (vc_dist v9)) DM_NONE)) (
    chk 76 (let! v10 := deref v6 in Ok (negb (Distance_isReported (vc_dist v10)))) (
    chk 77 (let! v11 := deref v6 in Ok (Cardinal_beq (Direction_cardinal (vc_movDir v11) false) Cd_NOT_REPORTED)) (
    chk 78 (let! v12 := deref v6 in let! v13 := (VicinityGroup_directions v12) in Ok (N.eqb (N.of_nat (List.length v13)) 1%N)) (
    chk 79 (let! v14 := deref v6 in let! v15 := (VicinityGroup_directions v14) in let! v16 := deref (List.nth_error v15 0%nat) in Ok (Cardinal_beq (Direction_cardinal v16 false) Cd_N)) (
    chk 80 (let! v17 := deref v6 in Ok (VicinityGroup_isValid v17)) (
    None))))))))))))).

Definition t_VicinityGroup_parseACC_N : option N :=
    step 84 ((VicinityGroup_parse "ACC" RP_RMK md_default)) (fun v1 => 
    chk 85 (Ok (has_value v1)) (
    step 87 (let! v2 := deref v1 in VicinityGroup_append v2 "N" RP_RMK md_default) (fun p => let v3 := Some (fst p) in let v4 := snd p in 
    chk 87 (Ok (AppendResult_beq v4 APPENDED)) (
    step 88 (let! v5 := deref v3 in VicinityGroup_append v5 "" RP_RMK md_default) (fun p => let v6 := Some (fst p) in let v7 := snd p in 
    chk 88 (Ok (AppendResult_beq v7 NOT_APPENDED)) (
    chk 90 (let! v8 := deref v6 in Ok (VcType_beq (vc_t v8) Vc_ALTOCUMULUS_CASTELLANUS)) (
    chk 91 (let! v9 := deref v6 in Ok (DistModifier_beq (distModifier (vc_dist v9)) DM_NONE)) (
    chk 92 (let! v10 := deref v6 in Ok (negb (Distance_isReported (vc_dist v10)))) (
    chk 93 (let! v11 := deref v6 in Ok (Cardinal_beq (Direction_cardinal (vc_movDir v11) false) Cd_NOT_REPORTED)) (
    chk 94 (let! v12 := deref v6 in let! v13 := (VicinityGroup_directions v12) in Ok (N.eqb (N.of_nat (List.length v13)) 1%N)) (
    chk 95 (let! v14 := deref v6 in let! v15 := (VicinityGroup_directions v14) in let! v16 := deref (List.nth_error v15 0%nat) in Ok (Cardinal_beq (Direction_cardinal v16 false) Cd_N)) (
    chk 96 (let! v17 := deref v6 in Ok (VicinityGroup_isValid v17)) (
    None))))))))))))).

Definition t_VicinityGroup_parseSCSL_N : option N :=
    step 100 ((VicinityGroup_parse "SCSL" RP_RMK md_default)) (fun v1 => 
    chk 101 (Ok (has_value v1)) (
    step 103 (let! v2 := deref v1 in VicinityGroup_append v2 "N" RP_RMK md_default) (fun p => let v3 := Some (fst p) in let v4 := snd p in 
    chk 103 (Ok (AppendResult_beq v4 APPENDED)) (
    step 104 (let! v5 := deref v3 in VicinityGroup_append v5 "" RP_RMK md_default) (fun p => let v6 := Some (fst p) in let v7 := snd p in 
    chk 104 (Ok (AppendResult_beq v7 NOT_APPENDED)) (
    chk 106 (let! v8 := deref v6 in Ok (VcType_beq (vc_t v8) Vc_STRATOCUMULUS_STANDING_LENTICULAR)) (
    chk 107 (let! v9 := deref v6 in Ok (DistModifier_beq (distModifier (vc_dist v9)) DM_NONE)) (
    chk 108 (let! v10 := deref v6 in Ok (negb (Distance_isReported (vc_dist v10)))) (
    chk 109 (let! v11 := deref v6 in Ok (Cardinal_beq (Direction_cardinal (vc_movDir v11) false) Cd_NOT_REPORTED)) (
    chk 110 (let! v12 := deref v6 in let! v13 := (VicinityGroup_directions v12) in Ok (N.eqb (N.of_nat (List.length v13)) 1%N)) (
    chk 111 (let! v14 := deref v6 in let! v15 := (VicinityGroup_directions v14) in let! v16 := deref (List.nth_error v15 0%nat) in Ok (Cardinal_beq (Direction_cardinal v16 false) Cd_N)) (
    chk 112 (let! v17 := deref v6 in Ok (VicinityGroup_isValid v17)) (
    None))))))))))))).

Definition t_VicinityGroup_parseACSL_N : option N :=
    step 116 ((VicinityGroup_parse "ACSL" RP_RMK md_default)) (fun v1 => 
    chk 117 (Ok (has_value v1)) (
    step 119 (let! v2 := deref v1 in VicinityGroup_append v2 "N" RP_RMK md_default) (fun p => let v3 := Some (fst p) in let v4 := snd p in 
    chk 119 (Ok (AppendResult_beq v4 APPENDED)) (
    step 120 (let! v5 := deref v3 in VicinityGroup_append v5 "" RP_RMK md_default) (fun p => let v6 := Some (fst p) in let v7 := snd p in 
    chk 120 (Ok (AppendResult_beq v7 NOT_APPENDED)) (
    chk 122 (let! v8 := deref v6 in Ok (VcType_beq (vc_t v8) Vc_ALTOCUMULUS_STANDING_LENTICULAR)) (
    chk 123 (let! v9 := deref v6 in Ok (DistModifier_beq (distModifier (vc_dist v9)) DM_NONE)) (
    chk 124 (let! v10 := deref v6 in Ok (negb (Distance_isReported (vc_dist v10)))) (
    chk 125 (let! v11 := deref v6 in Ok (Cardinal_beq (Direction_cardinal (vc_movDir v11) false) Cd_NOT_REPORTED)) (
    chk 126 (let! v12 := deref v6 in let! v13 := (VicinityGroup_directions v12) in Ok (N.eqb (N.of_nat (List.length v13)) 1%N)) (
    chk 127 (let! v14 := deref v6 in let! v15 := (VicinityGroup_directions v14) in let! v16 := deref (List.nth_error v15 0%nat) in Ok (Cardinal_beq (Direction_cardinal v16 false) Cd_N)) (
    chk 128 (let! v17 := deref v6 in Ok (VicinityGroup_isValid v17)) (
    None))))))))))))).

Definition t_VicinityGroup_parseCCSL_N : option N :=
    step 132 ((VicinityGroup_parse "CCSL" RP_RMK md_default)) (fun v1 => 
    chk 133 (Ok (has_value v1)) (
    step 135 (let! v2 := deref v1 in VicinityGroup_append v2 "N" RP_RMK md_default) (fun p => let v3 := Some (fst p) in let v4 := snd p in 
    chk 135 (Ok (AppendResult_beq v4 APPENDED)) (
    step 136 (let! v5 := deref v3 in VicinityGroup_append v5 "" RP_RMK md_default) (fun p => let v6 := Some (fst p) in let v7 := snd p in 
    chk 136 (Ok (AppendResult_beq v7 NOT_APPENDED)) (
    chk 138 (let! v8 := deref v6 in Ok (VcType_beq (vc_t v8) Vc_CIRROCUMULUS_STANDING_LENTICULAR)) (
    chk 139 (let! v9 := deref v6 in Ok (DistModifier_beq (distModifier (vc_dist v9)) DM_NONE)) (
    chk 140 (let! v10 := deref v6 in Ok (negb (Distance_isReported (vc_dist v10)))) (
    chk 141 (let! v11 := deref v6 in Ok (Cardinal_beq (Direction_cardinal (vc_movDir v11) false) Cd_NOT_REPORTED)) (
    chk 142 (let! v12 := deref v6 in let! v13 := (VicinityGroup_directions v12) in Ok (N.eqb (N.of_nat (List.length v13)) 1%N)) (
    chk 143 (let! v14 := deref v6 in let! v15 := (VicinityGroup_directions v14) in let! v16 := deref (List.nth_error v15 0%nat) in Ok (Cardinal_beq (Direction_cardinal v16 false) Cd_N)) (
    chk 144 (let! v17 := deref v6 in Ok (VicinityGroup_isValid v17)) (
    None))))))))))))).

Definition t_VicinityGroup_parseVIRGA_N : option N :=
    step 148 ((VicinityGroup_parse "VIRGA" RP_RMK md_default)) (fun v1 => 
    chk 149 (Ok (has_value v1)) (
    step 151 (let! v2 := deref v1 in VicinityGroup_append v2 "N" RP_RMK md_default) (fun p => let v3 := Some (fst p) in let v4 := snd p in 
    chk 151 (Ok (AppendResult_beq v4 APPENDED)) (
    step 152 (let! v5 := deref v3 in VicinityGroup_append v5 "" RP_RMK md_default) (fun p => let v6 := Some (fst p) in let v7 := snd p in 
    chk 152 (Ok (AppendResult_beq v7 NOT_APPENDED)) (
    chk 154 (let! v8 := deref v6 in Ok (VcType_beq (vc_t v8) Vc_VIRGA)) (
    chk 155 (let! v9 := deref v6 in Ok (DistModifier_beq (distModifier (vc_dist v9)) DM_NONE)) (
    chk 156 (let! v10 := deref v6 in Ok (negb (Distance_isReported (vc_dist v10)))) (
    chk 157 (let! v11 := deref v6 in Ok (Cardinal_beq (Direction_cardinal (vc_movDir v11) false) Cd_NOT_REPORTED)) (
    chk 158 (let! v12 := deref v6 in let! v13 := (VicinityGroup_directions v12) in Ok (N.eqb (N.of_nat (List.length v13)) 1%N)) (
    chk 159 (let! v14 := deref v6 in let! v15 := (VicinityGroup_directions v14) in let! v16 := deref (List.nth_error v15 0%nat) in Ok (Cardinal_beq (Direction_cardinal v16 false) Cd_N)) (
    chk 160 (let! v17 := deref v6 in Ok (VicinityGroup_isValid v17)) (
    None))))))))))))).

Definition t_VicinityGroup_parseVCSH_N : option N :=
    step 164 ((VicinityGroup_parse "VCSH" RP_RMK md_default)) (fun v1 => 
    chk 165 (Ok (has_value v1)) (
    step 167 (let! v2 := deref v1 in VicinityGroup_append v2 "N" RP_RMK md_default) (fun p => let v3 := Some (fst p) in let v4 := snd p in 
    chk 167 (Ok (AppendResult_beq v4 APPENDED)) (
    step 168 (let! v5 := deref v3 in VicinityGroup_append v5 "" RP_RMK md_default) (fun p => let v6 := Some (fst p) in let v7 := snd p in 
    chk 168 (Ok (AppendResult_beq v7 NOT_APPENDED)) (
    chk 170 (let! v8 := deref v6 in Ok (VcType_beq (vc_t v8) Vc_PRECIPITATION_IN_VICINITY)) (
    chk 171 (let! v9 := deref v6 in Ok (DistModifier_beq (distModifier (vc_dist v9)) DM_NONE)) (
    chk 172 (let! v10 := deref v6 in Ok (negb (Distance_isReported (vc_dist v10)))) (
    chk 173 (let! v11 := deref v6 in Ok (Cardinal_beq (Direction_cardinal (vc_movDir v11) false) Cd_NOT_REPORTED)) (
    chk 174 (let! v12 := deref v6 in let! v13 := (VicinityGroup_directions v12) in Ok (N.eqb (N.of_nat (List.length v13)) 1%N)) (
    chk 175 (let! v14 := deref v6 in let! v15 := (VicinityGroup_directions v14) in let! v16 := deref (List.nth_error v15 0%nat) in Ok (Cardinal_beq (Direction_cardinal v16 false) Cd_N)) (
    chk 176 (let! v17 := deref v6 in Ok (VicinityGroup_isValid v17)) (
    None))))))))))))).

Definition t_VicinityGroup_parseFOG_N : option N :=
    step 180 ((VicinityGroup_parse "FOG" RP_RMK md_default)) (fun v1 => 
    chk 181 (Ok (has_value v1)) (
    step 183 (let! v2 := deref v1 in VicinityGroup_append v2 "N" RP_RMK md_default) (fun p => let v3 := Some (fst p) in let v4 := snd p in 
    chk 183 (Ok (AppendResult_beq v4 APPENDED)) (
    step 184 (let! v5 := deref v3 in VicinityGroup_append v5 "" RP_RMK md_default) (fun p => let v6 := Some (fst p) in let v7 := snd p in 
    chk 184 (Ok (AppendResult_beq v7 NOT_APPENDED)) (
    chk 186 (let! v8 := deref v6 in Ok (VcType_beq (vc_t v8) Vc_FOG)) (
    chk 187 (let! v9 := deref v6 in Ok (DistModifier_beq (distModifier (vc_dist v9)) DM_NONE)) (
    chk 188 (let! v10 := deref v6 in Ok (negb (Distance_isReported (vc_dist v10)))) (
    chk 189 (let! v11 := deref v6 in Ok (Cardinal_beq (Direction_cardinal (vc_movDir v11) false) Cd_NOT_REPORTED)) (
    chk 190 (let! v12 := deref v6 in let! v13 := (VicinityGroup_directions v12) in Ok (N.eqb (N.of_nat (List.length v13)) 1%N)) (
    chk 191 (let! v14 := deref v6 in let! v15 := (VicinityGroup_directions v14) in let! v16 := deref (List.nth_error v15 0%nat) in Ok (Cardinal_beq (Direction_cardinal v16 false) Cd_N)) (
    chk 192 (let! v17 := deref v6 in Ok (VicinityGroup_isValid v17)) (
    step 194 ((VicinityGroup_parse "FG" RP_RMK md_default)) (fun v18 => 
    chk 195 (Ok (has_value v18)) (
    step 197 (let! v19 := deref v18 in VicinityGroup_append v19 "N" RP_RMK md_default) (fun p => let v20 := Some (fst p) in let v21 := snd p in 
    chk 197 (Ok (AppendResult_beq v21 APPENDED)) (
    step 198 (let! v22 := deref v20 in VicinityGroup_append v22 "" RP_RMK md_default) (fun p => let v23 := Some (fst p) in let v24 := snd p in 
    chk 198 (Ok (AppendResult_beq v24 NOT_APPENDED)) (
    chk 200 (let! v25 := deref v23 in Ok (VcType_beq (vc_t v25) Vc_FOG)) (
    chk 201 (let! v26 := deref v23 in Ok (DistModifier_beq (distModifier (vc_dist v26)) DM_NONE)) (
    chk 202 (let! v27 := deref v23 in Ok (negb (Distance_isReported (vc_dist v27)))) (
    chk 203 (let! v28 := deref v23 in Ok (Cardinal_beq (Direction_cardinal (vc_movDir v28) false) Cd_NOT_REPORTED)) (
    chk 204 (let! v29 := deref v23 in let! v30 := (VicinityGroup_directions v29) in Ok (N.eqb (N.of_nat (List.length v30)) 1%N)) (
    chk 205 (let! v31 := deref v23 in let! v32 := (VicinityGroup_directions v31) in let! v33 := deref (List.nth_error v32 0%nat) in Ok (Cardinal_beq (Direction_cardinal v33 false) Cd_N)) (
    chk 206 (let! v34 := deref v23 in Ok (VicinityGroup_isValid v34)) (
    None)))))))))))))))))))))))))).

Definition t_VicinityGroup_parseMIFG_N : option N :=
    step 210 ((VicinityGroup_parse "MIFG" RP_RMK md_default)) (fun v1 => 
    chk 211 (Ok (has_value v1)) (
    step 213 (let! v2 := deref v1 in VicinityGroup_append v2 "N" RP_RMK md_default) (fun p => let v3 := Some (fst p) in let v4 := snd p in 
    chk 213 (Ok (AppendResult_beq v4 APPENDED)) (
    step 214 (let! v5 := deref v3 in VicinityGroup_append v5 "" RP_RMK md_default) (fun p => let v6 := Some (fst p) in let v7 := snd p in 
    chk 214 (Ok (AppendResult_beq v7 NOT_APPENDED)) (
    chk 216 (let! v8 := deref v6 in Ok (VcType_beq (vc_t v8) Vc_FOG_SHALLOW)) (
    chk 217 (let! v9 := deref v6 in Ok (DistModifier_beq (distModifier (vc_dist v9)) DM_NONE)) (
    chk 218 (let! v10 := deref v6 in Ok (negb (Distance_isReported (vc_dist v10)))) (
    chk 219 (let! v11 := deref v6 in Ok (Cardinal_beq (Direction_cardinal (vc_movDir v11) false) Cd_NOT_REPORTED)) (
    chk 220 (let! v12 := deref v6 in let! v13 := (VicinityGroup_directions v12) in Ok (N.eqb (N.of_nat (List.length v13)) 1%N)) (
    chk 221 (let! v14 := deref v6 in let! v15 := (VicinityGroup_directions v14) in let! v16 := deref (List.nth_error v15 0%nat) in Ok (Cardinal_beq (Direction_cardinal v16 false) Cd_N)) (
    chk 222 (let! v17 := deref v6 in Ok (VicinityGroup_isValid v17)) (
    None))))))))))))).

Definition t_VicinityGroup_parseBCFG_N : option N :=
    step 226 ((VicinityGroup_parse "BCFG" RP_RMK md_default)) (fun v1 => 
    chk 227 (Ok (has_value v1)) (
    step 229 (let! v2 := deref v1 in VicinityGroup_append v2 "N" RP_RMK md_default) (fun p => let v3 := Some (fst p) in let v4 := snd p in 
    chk 229 (Ok (AppendResult_beq v4 APPENDED)) (
    step 230 (let! v5 := deref v3 in VicinityGroup_append v5 "" RP_RMK md_default) (fun p => let v6 := Some (fst p) in let v7 := snd p in 
    chk 230 (Ok (AppendResult_beq v7 NOT_APPENDED)) (
    chk 232 (let! v8 := deref v6 in Ok (VcType_beq (vc_t v8) Vc_FOG_PATCHES)) (
    chk 233 (let! v9 := deref v6 in Ok (DistModifier_beq (distModifier (vc_dist v9)) DM_NONE)) (
    chk 234 (let! v10 := deref v6 in Ok (negb (Distance_isReported (vc_dist v10)))) (
    chk 235 (let! v11 := deref v6 in Ok (Cardinal_beq (Direction_cardinal (vc_movDir v11) false) Cd_NOT_REPORTED)) (
    chk 236 (let! v12 := deref v6 in let! v13 := (VicinityGroup_directions v12) in Ok (N.eqb (N.of_nat (List.length v13)) 1%N)) (
    chk 237 (let! v14 := deref v6 in let! v15 := (VicinityGroup_directions v14) in let! v16 := deref (List.nth_error v15 0%nat) in Ok (Cardinal_beq (Direction_cardinal v16 false) Cd_N)) (
    chk 238 (let! v17 := deref v6 in Ok (VicinityGroup_isValid v17)) (
    None))))))))))))).

Definition t_VicinityGroup_parseHAZE_N : option N :=
    step 242 ((VicinityGroup_parse "HAZE" RP_RMK md_default)) (fun v1 => 
    chk 243 (Ok (has_value v1)) (
    step 245 (let! v2 := deref v1 in VicinityGroup_append v2 "N" RP_RMK md_default) (fun p => let v3 := Some (fst p) in let v4 := snd p in 
    chk 245 (Ok (AppendResult_beq v4 APPENDED)) (
    step 246 (let! v5 := deref v3 in VicinityGroup_append v5 "" RP_RMK md_default) (fun p => let v6 := Some (fst p) in let v7 := snd p in 
    chk 246 (Ok (AppendResult_beq v7 NOT_APPENDED)) (
    chk 248 (let! v8 := deref v6 in Ok (VcType_beq (vc_t v8) Vc_HAZE)) (
    chk 249 (let! v9 := deref v6 in Ok (DistModifier_beq (distModifier (vc_dist v9)) DM_NONE)) (
    chk 250 (let! v10 := deref v6 in Ok (negb (Distance_isReported (vc_dist v10)))) (
    chk 251 (let! v11 := deref v6 in Ok (Cardinal_beq (Direction_cardinal (vc_movDir v11) false) Cd_NOT_REPORTED)) (
    chk 252 (let! v12 := deref v6 in let! v13 := (VicinityGroup_directions v12) in Ok (N.eqb (N.of_nat (List.length v13)) 1%N)) (
    chk 253 (let! v14 := deref v6 in let! v15 := (VicinityGroup_directions v14) in let! v16 := deref (List.nth_error v15 0%nat) in Ok (Cardinal_beq (Direction_cardinal v16 false) Cd_N)) (
    chk 254 (let! v17 := deref v6 in Ok (VicinityGroup_isValid v17)) (
    step 256 ((VicinityGroup_parse "HZ" RP_RMK md_default)) (fun v18 => 
    chk 257 (Ok (has_value v18)) (
    step 259 (let! v19 := deref v18 in VicinityGroup_append v19 "N" RP_RMK md_default) (fun p => let v20 := Some (fst p) in let v21 := snd p in 
    chk 259 (Ok (AppendResult_beq v21 APPENDED)) (
    step 260 (let! v22 := deref v20 in VicinityGroup_append v22 "" RP_RMK md_default) (fun p => let v23 := Some (fst p) in let v24 := snd p in 
    chk 260 (Ok (AppendResult_beq v24 NOT_APPENDED)) (
    chk 262 (let! v25 := deref v23 in Ok (VcType_beq (vc_t v25) Vc_HAZE)) (
    chk 263 (let! v26 := deref v23 in Ok (DistModifier_beq (distModifier (vc_dist v26)) DM_NONE)) (
    chk 264 (let! v27 := deref v23 in Ok (negb (Distance_isReported (vc_dist v27)))) (
    chk 265 (let! v28 := deref v23 in Ok (Cardinal_beq (Direction_cardinal (vc_movDir v28) false) Cd_NOT_REPORTED)) (
    chk 266 (let! v29 := deref v23 in let! v30 := (VicinityGroup_directions v29) in Ok (N.eqb (N.of_nat (List.length v30)) 1%N)) (
    chk 267 (let! v31 := deref v23 in let! v32 := (VicinityGroup_directions v31) in let! v33 := deref (List.nth_error v32 0%nat) in Ok (Cardinal_beq (Direction_cardinal v33 false) Cd_N)) (
    chk 268 (let! v34 := deref v23 in Ok (VicinityGroup_isValid v34)) (
    None)))))))))))))))))))))))))).

Definition t_VicinityGroup_parseBLSN_N : option N :=
    step 272 ((VicinityGroup_parse "BLSN" RP_RMK md_default)) (fun v1 => 
    chk 273 (Ok (has_value v1)) (
    step 275 (let! v2 := deref v1 in VicinityGroup_append v2 "N" RP_RMK md_default) (fun p => let v3 := Some (fst p) in let v4 := snd p in 
    chk 275 (Ok (AppendResult_beq v4 APPENDED)) (
    step 276 (let! v5 := deref v3 in VicinityGroup_append v5 "" RP_RMK md_default) (fun p => let v6 := Some (fst p) in let v7 := snd p in 
    chk 276 (Ok (AppendResult_beq v7 NOT_APPENDED)) (
    chk 278 (let! v8 := deref v6 in Ok (VcType_beq (vc_t v8) Vc_BLOWING_SNOW)) (
    chk 279 (let! v9 := deref v6 in Ok (DistModifier_beq (distModifier (vc_dist v9)) DM_NONE)) (
    chk 280 (let! v10 := deref v6 in Ok (negb (Distance_isReported (vc_dist v10)))) (
    chk 281 (let! v11 := deref v6 in Ok (Cardinal_beq (Direction_cardinal (vc_movDir v11) false) Cd_NOT_REPORTED)) (
    chk 282 (let! v12 := deref v6 in let! v13 := (VicinityGroup_directions v12) in Ok (N.eqb (N.of_nat (List.length v13)) 1%N)) (
    chk 283 (let! v14 := deref v6 in let! v15 := (VicinityGroup_directions v14) in let! v16 := deref (List.nth_error v15 0%nat) in Ok (Cardinal_beq (Direction_cardinal v16 false) Cd_N)) (
    chk 284 (let! v17 := deref v6 in Ok (VicinityGroup_isValid v17)) (
    None))))))))))))).

Definition t_VicinityGroup_parseBLSA_N : option N :=
    step 288 ((VicinityGroup_parse "BLSA" RP_RMK md_default)) (fun v1 => 
    chk 289 (Ok (has_value v1)) (
    step 291 (let! v2 := deref v1 in VicinityGroup_append v2 "N" RP_RMK md_default) (fun p => let v3 := Some (fst p) in let v4 := snd p in 
    chk 291 (Ok (AppendResult_beq v4 APPENDED)) (
    step 292 (let! v5 := deref v3 in VicinityGroup_append v5 "" RP_RMK md_default) (fun p => let v6 := Some (fst p) in let v7 := snd p in 
    chk 292 (Ok (AppendResult_beq v7 NOT_APPENDED)) (
    chk 294 (let! v8 := deref v6 in Ok (VcType_beq (vc_t v8) Vc_BLOWING_SAND)) (
    chk 295 (let! v9 := deref v6 in Ok (DistModifier_beq (distModifier (vc_dist v9)) DM_NONE)) (
    chk 296 (let! v10 := deref v6 in Ok (negb (Distance_isReported (vc_dist v10)))) (
    chk 297 (let! v11 := deref v6 in Ok (Cardinal_beq (Direction_cardinal (vc_movDir v11) false) Cd_NOT_REPORTED)) (
    chk 298 (let! v12 := deref v6 in let! v13 := (VicinityGroup_directions v12) in Ok (N.eqb (N.of_nat (List.length v13)) 1%N)) (
    chk 299 (let! v14 := deref v6 in let! v15 := (VicinityGroup_directions v14) in let! v16 := deref (List.nth_error v15 0%nat) in Ok (Cardinal_beq (Direction_cardinal v16 false) Cd_N)) (
    chk 300 (let! v17 := deref v6 in Ok (VicinityGroup_isValid v17)) (
    None))))))))))))).

Definition t_VicinityGroup_parseBLDU_N : option N :=
    step 304 ((VicinityGroup_parse "BLDU" RP_RMK md_default)) (fun v1 => 
    chk 305 (Ok (has_value v1)) (
    step 307 (let! v2 := deref v1 in VicinityGroup_append v2 "N" RP_RMK md_default) (fun p => let v3 := Some (fst p) in let v4 := snd p in 
    chk 307 (Ok (AppendResult_beq v4 APPENDED)) (
    step 308 (let! v5 := deref v3 in VicinityGroup_append v5 "" RP_RMK md_default) (fun p => let v6 := Some (fst p) in let v7 := snd p in 
    chk 308 (Ok (AppendResult_beq v7 NOT_APPENDED)) (
    chk 310 (let! v8 := deref v6 in Ok (VcType_beq (vc_t v8) Vc_BLOWING_DUST)) (
    chk 311 (let! v9 := deref v6 in Ok (DistModifier_beq (distModifier (vc_dist v9)) DM_NONE)) (
    chk 312 (let! v10 := deref v6 in Ok (negb (Distance_isReported (vc_dist v10)))) (
    chk 313 (let! v11 := deref v6 in Ok (Cardinal_beq (Direction_cardinal (vc_movDir v11) false) Cd_NOT_REPORTED)) (
    chk 314 (let! v12 := deref v6 in let! v13 := (VicinityGroup_directions v12) in Ok (N.eqb (N.of_nat (List.length v13)) 1%N)) (
    chk 315 (let! v14 := deref v6 in let! v15 := (VicinityGroup_directions v14) in let! v16 := deref (List.nth_error v15 0%nat) in Ok (Cardinal_beq (Direction_cardinal v16 false) Cd_N)) (
    chk 316 (let! v17 := deref v6 in Ok (VicinityGroup_isValid v17)) (
    None))))))))))))).

Definition t_VicinityGroup_parseROTOR_CLD_N : option N :=
    step 320 ((VicinityGroup_parse "ROTOR" RP_RMK md_default)) (fun v1 => 
    chk 321 (Ok (has_value v1)) (
    step 323 (let! v2 := deref v1 in VicinityGroup_append v2 "CLD" RP_RMK md_default) (fun p => let v3 := Some (fst p) in let v4 := snd p in 
    chk 323 (Ok (AppendResult_beq v4 APPENDED)) (
    step 324 (let! v5 := deref v3 in VicinityGroup_append v5 "N" RP_RMK md_default) (fun p => let v6 := Some (fst p) in let v7 := snd p in 
    chk 324 (Ok (AppendResult_beq v7 APPENDED)) (
    step 325 (let! v8 := deref v6 in VicinityGroup_append v8 "" RP_RMK md_default) (fun p => let v9 := Some (fst p) in let v10 := snd p in 
    chk 325 (Ok (AppendResult_beq v10 NOT_APPENDED)) (
    chk 327 (let! v11 := deref v9 in Ok (VcType_beq (vc_t v11) Vc_ROTOR_CLOUD)) (
    chk 328 (let! v12 := deref v9 in Ok (DistModifier_beq (distModifier (vc_dist v12)) DM_NONE)) (
    chk 329 (let! v13 := deref v9 in Ok (negb (Distance_isReported (vc_dist v13)))) (
    chk 330 (let! v14 := deref v9 in Ok (Cardinal_beq (Direction_cardinal (vc_movDir v14) false) Cd_NOT_REPORTED)) (
    chk 331 (let! v15 := deref v9 in let! v16 := (VicinityGroup_directions v15) in Ok (N.eqb (N.of_nat (List.length v16)) 1%N)) (
    chk 332 (let! v17 := deref v9 in let! v18 := (VicinityGroup_directions v17) in let! v19 := deref (List.nth_error v18 0%nat) in Ok (Cardinal_beq (Direction_cardinal v19 false) Cd_N)) (
    chk 333 (let! v20 := deref v9 in Ok (VicinityGroup_isValid v20)) (
    None))))))))))))))).

Definition t_VicinityGroup_parseCB_N_SE : option N :=
    step 343 ((VicinityGroup_parse "CB" RP_RMK md_default)) (fun v1 => 
    chk 344 (Ok (has_value v1)) (
    step 346 (let! v2 := deref v1 in VicinityGroup_append v2 "N-SE" RP_RMK md_default) (fun p => let v3 := Some (fst p) in let v4 := snd p in 
    chk 346 (Ok (AppendResult_beq v4 APPENDED)) (
    step 347 (let! v5 := deref v3 in VicinityGroup_append v5 "" RP_RMK md_default) (fun p => let v6 := Some (fst p) in let v7 := snd p in 
    chk 347 (Ok (AppendResult_beq v7 NOT_APPENDED)) (
    chk 349 (let! v8 := deref v6 in Ok (VcType_beq (vc_t v8) Vc_CUMULONIMBUS)) (
    chk 350 (let! v9 := deref v6 in Ok (DistModifier_beq (distModifier (vc_dist v9)) DM_NONE)) (
    chk 351 (let! v10 := deref v6 in Ok (negb (Distance_isReported (vc_dist v10)))) (
    chk 352 (let! v11 := deref v6 in Ok (Cardinal_beq (Direction_cardinal (vc_movDir v11) false) Cd_NOT_REPORTED)) (
    chk 353 (let! v12 := deref v6 in let! v13 := (VicinityGroup_directions v12) in Ok (N.eqb (N.of_nat (List.length v13)) 4%N)) (
    chk 354 (let! v14 := deref v6 in let! v15 := (VicinityGroup_directions v14) in let! v16 := deref (List.nth_error v15 0%nat) in Ok (Cardinal_beq (Direction_cardinal v16 false) Cd_N)) (
    chk 355 (let! v17 := deref v6 in let! v18 := (VicinityGroup_directions v17) in let! v19 := deref (List.nth_error v18 1%nat) in Ok (Cardinal_beq (Direction_cardinal v19 false) Cd_NE)) (
    chk 356 (let! v20 := deref v6 in let! v21 := (VicinityGroup_directions v20) in let! v22 := deref (List.nth_error v21 2%nat) in Ok (Cardinal_beq (Direction_cardinal v22 false) Cd_E)) (
    chk 357 (let! v23 := deref v6 in let! v24 := (VicinityGroup_directions v23) in let! v25 := deref (List.nth_error v24 3%nat) in Ok (Cardinal_beq (Direction_cardinal v25 false) Cd_SE)) (
    chk 358 (let! v26 := deref v6 in Ok (VicinityGroup_isValid v26)) (
    None)))))))))))))))).

Definition t_VicinityGroup_parseCB_N__SE : option N :=
    step 362 ((VicinityGroup_parse "CB" RP_RMK md_default)) (fun v1 => 
    chk 363 (Ok (has_value v1)) (
    step 365 (let! v2 := deref v1 in VicinityGroup_append v2 "N" RP_RMK md_default) (fun p => let v3 := Some (fst p) in let v4 := snd p in 
    chk 365 (Ok (AppendResult_beq v4 APPENDED)) (
    step 366 (let! v5 := deref v3 in VicinityGroup_append v5 "SE" RP_RMK md_default) (fun p => let v6 := Some (fst p) in let v7 := snd p in 
    chk 366 (Ok (AppendResult_beq v7 APPENDED)) (
    step 367 (let! v8 := deref v6 in VicinityGroup_append v8 "" RP_RMK md_default) (fun p => let v9 := Some (fst p) in let v10 := snd p in 
    chk 367 (Ok (AppendResult_beq v10 NOT_APPENDED)) (
    chk 369 (let! v11 := deref v9 in Ok (VcType_beq (vc_t v11) Vc_CUMULONIMBUS)) (
    chk 370 (let! v12 := deref v9 in Ok (DistModifier_beq (distModifier (vc_dist v12)) DM_NONE)) (
    chk 371 (let! v13 := deref v9 in Ok (negb (Distance_isReported (vc_dist v13)))) (
    chk 372 (let! v14 := deref v9 in Ok (Cardinal_beq (Direction_cardinal (vc_movDir v14) false) Cd_NOT_REPORTED)) (
    chk 373 (let! v15 := deref v9 in let! v16 := (VicinityGroup_directions v15) in Ok (N.eqb (N.of_nat (List.length v16)) 2%N)) (
    chk 374 (let! v17 := deref v9 in let! v18 := (VicinityGroup_directions v17) in let! v19 := deref (List.nth_error v18 0%nat) in Ok (Cardinal_beq (Direction_cardinal v19 false) Cd_N)) (
    chk 375 (let! v20 := deref v9 in let! v21 := (VicinityGroup_directions v20) in let! v22 := deref (List.nth_error v21 1%nat) in Ok (Cardinal_beq (Direction_cardinal v22 false) Cd_SE)) (
    chk 376 (let! v23 := deref v9 in Ok (VicinityGroup_isValid v23)) (
    None)))))))))))))))).

Definition t_VicinityGroup_parseCB_N_SE_AND_W : option N :=
    step 380 ((VicinityGroup_parse "CB" RP_RMK md_default)) (fun v1 => 
    chk 381 (Ok (has_value v1)) (
    step 383 (let! v2 := deref v1 in VicinityGroup_append v2 "N-SE" RP_RMK md_default) (fun p => let v3 := Some (fst p) in let v4 := snd p in 
    chk 383 (Ok (AppendResult_beq v4 APPENDED)) (
    step 384 (let! v5 := deref v3 in VicinityGroup_append v5 "AND" RP_RMK md_default) (fun p => let v6 := Some (fst p) in let v7 := snd p in 
    chk 384 (Ok (AppendResult_beq v7 APPENDED)) (
    step 385 (let! v8 := deref v6 in VicinityGroup_append v8 "W" RP_RMK md_default) (fun p => let v9 := Some (fst p) in let v10 := snd p in 
    chk 385 (Ok (AppendResult_beq v10 APPENDED)) (
    step 386 (let! v11 := deref v9 in VicinityGroup_append v11 "" RP_RMK md_default) (fun p => let v12 := Some (fst p) in let v13 := snd p in 
    chk 386 (Ok (AppendResult_beq v13 NOT_APPENDED)) (
    chk 388 (let! v14 := deref v12 in Ok (VcType_beq (vc_t v14) Vc_CUMULONIMBUS)) (
    chk 389 (let! v15 := deref v12 in Ok (negb (Distance_isReported (vc_dist v15)))) (
    chk 390 (let! v16 := deref v12 in Ok (Cardinal_beq (Direction_cardinal (vc_movDir v16) false) Cd_NOT_REPORTED)) (
    chk 391 (let! v17 := deref v12 in let! v18 := (VicinityGroup_directions v17) in Ok (N.eqb (N.of_nat (List.length v18)) 5%N)) (
    chk 392 (let! v19 := deref v12 in let! v20 := (VicinityGroup_directions v19) in let! v21 := deref (List.nth_error v20 0%nat) in Ok (Cardinal_beq (Direction_cardinal v21 false) Cd_N)) (
    chk 393 (let! v22 := deref v12 in let! v23 := (VicinityGroup_directions v22) in let! v24 := deref (List.nth_error v23 1%nat) in Ok (Cardinal_beq (Direction_cardinal v24 false) Cd_NE)) (
    chk 394 (let! v25 := deref v12 in let! v26 := (VicinityGroup_directions v25) in let! v27 := deref (List.nth_error v26 2%nat) in Ok (Cardinal_beq (Direction_cardinal v27 false) Cd_E)) (
    chk 395 (let! v28 := deref v12 in let! v29 := (VicinityGroup_directions v28) in let! v30 := deref (List.nth_error v29 3%nat) in Ok (Cardinal_beq (Direction_cardinal v30 false) Cd_SE)) (
    chk 396 (let! v31 := deref v12 in let! v32 := (VicinityGroup_directions v31) in let! v33 := deref (List.nth_error v32 4%nat) in Ok (Cardinal_beq (Direction_cardinal v33 false) Cd_W)) (
    chk 397 (let! v34 := deref v12 in Ok (VicinityGroup_isValid v34)) (
    None)))))))))))))))))))).

Definition t_VicinityGroup_parseCB_OHD_AND_W : option N :=
    step 401 ((VicinityGroup_parse "CB" RP_RMK md_default)) (fun v1 => 
    chk 402 (Ok (has_value v1)) (
    step 404 (let! v2 := deref v1 in VicinityGroup_append v2 "OHD" RP_RMK md_default) (fun p => let v3 := Some (fst p) in let v4 := snd p in 
    chk 404 (Ok (AppendResult_beq v4 APPENDED)) (
    step 405 (let! v5 := deref v3 in VicinityGroup_append v5 "AND" RP_RMK md_default) (fun p => let v6 := Some (fst p) in let v7 := snd p in 
    chk 405 (Ok (AppendResult_beq v7 APPENDED)) (
    step 406 (let! v8 := deref v6 in VicinityGroup_append v8 "W" RP_RMK md_default) (fun p => let v9 := Some (fst p) in let v10 := snd p in 
    chk 406 (Ok (AppendResult_beq v10 APPENDED)) (
    step 407 (let! v11 := deref v9 in VicinityGroup_append v11 "" RP_RMK md_default) (fun p => let v12 := Some (fst p) in let v13 := snd p in 
    chk 407 (Ok (AppendResult_beq v13 NOT_APPENDED)) (
    chk 409 (let! v14 := deref v12 in Ok (VcType_beq (vc_t v14) Vc_CUMULONIMBUS)) (
    chk 410 (let! v15 := deref v12 in Ok (negb (Distance_isReported (vc_dist v15)))) (
    chk 411 (let! v16 := deref v12 in Ok (Cardinal_beq (Direction_cardinal (vc_movDir v16) false) Cd_NOT_REPORTED)) (
    chk 412 (let! v17 := deref v12 in let! v18 := (VicinityGroup_directions v17) in Ok (N.eqb (N.of_nat (List.length v18)) 2%N)) (
    chk 413 (let! v19 := deref v12 in let! v20 := (VicinityGroup_directions v19) in let! v21 := deref (List.nth_error v20 0%nat) in Ok (Cardinal_beq (Direction_cardinal v21 false) Cd_OHD)) (
    chk 414 (let! v22 := deref v12 in let! v23 := (VicinityGroup_directions v22) in let! v24 := deref (List.nth_error v23 1%nat) in Ok (Cardinal_beq (Direction_cardinal v24 false) Cd_W)) (
    chk 415 (let! v25 := deref v12 in Ok (VicinityGroup_isValid v25)) (
    None))))))))))))))))).

Definition t_VicinityGroup_parseCB_W_AND_OHD : option N :=
    step 419 ((VicinityGroup_parse "CB" RP_RMK md_default)) (fun v1 => 
    chk 420 (Ok (has_value v1)) (
    step 422 (let! v2 := deref v1 in VicinityGroup_append v2 "W" RP_RMK md_default) (fun p => let v3 := Some (fst p) in let v4 := snd p in 
    chk 422 (Ok (AppendResult_beq v4 APPENDED)) (
    step 423 (let! v5 := deref v3 in VicinityGroup_append v5 "AND" RP_RMK md_default) (fun p => let v6 := Some (fst p) in let v7 := snd p in 
    chk 423 (Ok (AppendResult_beq v7 APPENDED)) (
    step 424 (let! v8 := deref v6 in VicinityGroup_append v8 "OHD" RP_RMK md_default) (fun p => let v9 := Some (fst p) in let v10 := snd p in 
    chk 424 (Ok (AppendResult_beq v10 APPENDED)) (
    step 425 (let! v11 := deref v9 in VicinityGroup_append v11 "" RP_RMK md_default) (fun p => let v12 := Some (fst p) in let v13 := snd p in 
    chk 425 (Ok (AppendResult_beq v13 NOT_APPENDED)) (
    chk 427 (let! v14 := deref v12 in Ok (VcType_beq (vc_t v14) Vc_CUMULONIMBUS)) (
    chk 428 (let! v15 := deref v12 in Ok (DistModifier_beq (distModifier (vc_dist v15)) DM_NONE)) (
    chk 429 (let! v16 := deref v12 in Ok (negb (Distance_isReported (vc_dist v16)))) (
    chk 430 (let! v17 := deref v12 in Ok (Cardinal_beq (Direction_cardinal (vc_movDir v17) false) Cd_NOT_REPORTED)) (
    chk 431 (let! v18 := deref v12 in let! v19 := (VicinityGroup_directions v18) in Ok (N.eqb (N.of_nat (List.length v19)) 2%N)) (
    chk 432 (let! v20 := deref v12 in let! v21 := (VicinityGroup_directions v20) in let! v22 := deref (List.nth_error v21 0%nat) in Ok (Cardinal_beq (Direction_cardinal v22 false) Cd_W)) (
    chk 433 (let! v23 := deref v12 in let! v24 := (VicinityGroup_directions v23) in let! v25 := deref (List.nth_error v24 1%nat) in Ok (Cardinal_beq (Direction_cardinal v25 false) Cd_OHD)) (
    chk 434 (let! v26 := deref v12 in Ok (VicinityGroup_isValid v26)) (
    None)))))))))))))))))).

Definition t_VicinityGroup_parseCB_ALQDS : option N :=
    step 438 ((VicinityGroup_parse "CB" RP_RMK md_default)) (fun v1 => 
    chk 439 (Ok (has_value v1)) (
    step 441 (let! v2 := deref v1 in VicinityGroup_append v2 "ALQDS" RP_RMK md_default) (fun p => let v3 := Some (fst p) in let v4 := snd p in 
    chk 441 (Ok (AppendResult_beq v4 APPENDED)) (
    step 442 (let! v5 := deref v3 in VicinityGroup_append v5 "" RP_RMK md_default) (fun p => let v6 := Some (fst p) in let v7 := snd p in 
    chk 442 (Ok (AppendResult_beq v7 NOT_APPENDED)) (
    chk 444 (let! v8 := deref v6 in Ok (VcType_beq (vc_t v8) Vc_CUMULONIMBUS)) (
    chk 445 (let! v9 := deref v6 in Ok (DistModifier_beq (distModifier (vc_dist v9)) DM_NONE)) (
    chk 446 (let! v10 := deref v6 in Ok (negb (Distance_isReported (vc_dist v10)))) (
    chk 447 (let! v11 := deref v6 in Ok (Cardinal_beq (Direction_cardinal (vc_movDir v11) false) Cd_NOT_REPORTED)) (
    chk 448 (let! v12 := deref v6 in let! v13 := (VicinityGroup_directions v12) in Ok (N.eqb (N.of_nat (List.length v13)) 1%N)) (
    chk 449 (let! v14 := deref v6 in let! v15 := (VicinityGroup_directions v14) in let! v16 := deref (List.nth_error v15 0%nat) in Ok (Cardinal_beq (Direction_cardinal v16 false) Cd_ALQDS)) (
    chk 450 (let! v17 := deref v6 in Ok (VicinityGroup_isValid v17)) (
    None))))))))))))).

Definition t_VicinityGroup_parseCB_N_SE_MOV_N : option N :=
    step 460 ((VicinityGroup_parse "CB" RP_RMK md_default)) (fun v1 => 
    chk 461 (Ok (has_value v1)) (
    step 463 (let! v2 := deref v1 in VicinityGroup_append v2 "N-SE" RP_RMK md_default) (fun p => let v3 := Some (fst p) in let v4 := snd p in 
    chk 463 (Ok (AppendResult_beq v4 APPENDED)) (
    step 464 (let! v5 := deref v3 in VicinityGroup_append v5 "MOV" RP_RMK md_default) (fun p => let v6 := Some (fst p) in let v7 := snd p in 
    chk 464 (Ok (AppendResult_beq v7 APPENDED)) (
    step 465 (let! v8 := deref v6 in VicinityGroup_append v8 "NW" RP_RMK md_default) (fun p => let v9 := Some (fst p) in let v10 := snd p in 
    chk 465 (Ok (AppendResult_beq v10 APPENDED)) (
    step 466 (let! v11 := deref v9 in VicinityGroup_append v11 "" RP_RMK md_default) (fun p => let v12 := Some (fst p) in let v13 := snd p in 
    chk 466 (Ok (AppendResult_beq v13 NOT_APPENDED)) (
    chk 468 (let! v14 := deref v12 in Ok (VcType_beq (vc_t v14) Vc_CUMULONIMBUS)) (
    chk 469 (let! v15 := deref v12 in Ok (negb (Distance_isReported (vc_dist v15)))) (
    chk 470 (let! v16 := deref v12 in Ok (Cardinal_beq (Direction_cardinal (vc_movDir v16) false) Cd_NW)) (
    chk 471 (let! v17 := deref v12 in let! v18 := (VicinityGroup_directions v17) in Ok (N.eqb (N.of_nat (List.length v18)) 4%N)) (
    chk 472 (let! v19 := deref v12 in let! v20 := (VicinityGroup_directions v19) in let! v21 := deref (List.nth_error v20 0%nat) in Ok (Cardinal_beq (Direction_cardinal v21 false) Cd_N)) (
    chk 473 (let! v22 := deref v12 in let! v23 := (VicinityGroup_directions v22) in let! v24 := deref (List.nth_error v23 1%nat) in Ok (Cardinal_beq (Direction_cardinal v24 false) Cd_NE)) (
    chk 474 (let! v25 := deref v12 in let! v26 := (VicinityGroup_directions v25) in let! v27 := deref (List.nth_error v26 2%nat) in Ok (Cardinal_beq (Direction_cardinal v27 false) Cd_E)) (
    chk 475 (let! v28 := deref v12 in let! v29 := (VicinityGroup_directions v28) in let! v30 := deref (List.nth_error v29 3%nat) in Ok (Cardinal_beq (Direction_cardinal v30 false) Cd_SE)) (
    chk 476 (let! v31 := deref v12 in Ok (VicinityGroup_isValid v31)) (
    None))))))))))))))))))).

Definition t_VicinityGroup_parseCB_OHD_AND_W_MOV_S : option N :=
    step 480 ((VicinityGroup_parse "CB" RP_RMK md_default)) (fun v1 => 
    chk 481 (Ok (has_value v1)) (
    step 483 (let! v2 := deref v1 in VicinityGroup_append v2 "OHD" RP_RMK md_default) (fun p => let v3 := Some (fst p) in let v4 := snd p in 
    chk 483 (Ok (AppendResult_beq v4 APPENDED)) (
    step 484 (let! v5 := deref v3 in VicinityGroup_append v5 "AND" RP_RMK md_default) (fun p => let v6 := Some (fst p) in let v7 := snd p in 
    chk 484 (Ok (AppendResult_beq v7 APPENDED)) (
    step 485 (let! v8 := deref v6 in VicinityGroup_append v8 "W" RP_RMK md_default) (fun p => let v9 := Some (fst p) in let v10 := snd p in 
    chk 485 (Ok (AppendResult_beq v10 APPENDED)) (
    step 486 (let! v11 := deref v9 in VicinityGroup_append v11 "MOV" RP_RMK md_default) (fun p => let v12 := Some (fst p) in let v13 := snd p in 
    chk 486 (Ok (AppendResult_beq v13 APPENDED)) (
    step 487 (let! v14 := deref v12 in VicinityGroup_append v14 "S" RP_RMK md_default) (fun p => let v15 := Some (fst p) in let v16 := snd p in 
    chk 487 (Ok (AppendResult_beq v16 APPENDED)) (
    step 488 (let! v17 := deref v15 in VicinityGroup_append v17 "" RP_RMK md_default) (fun p => let v18 := Some (fst p) in let v19 := snd p in 
    chk 488 (Ok (AppendResult_beq v19 NOT_APPENDED)) (
    chk 490 (let! v20 := deref v18 in Ok (VcType_beq (vc_t v20) Vc_CUMULONIMBUS)) (
    chk 491 (let! v21 := deref v18 in Ok (negb (Distance_isReported (vc_dist v21)))) (
    chk 492 (let! v22 := deref v18 in Ok (Cardinal_beq (Direction_cardinal (vc_movDir v22) false) Cd_S)) (
    chk 493 (let! v23 := deref v18 in let! v24 := (VicinityGroup_directions v23) in Ok (N.eqb (N.of_nat (List.length v24)) 2%N)) (
    chk 494 (let! v25 := deref v18 in let! v26 := (VicinityGroup_directions v25) in let! v27 := deref (List.nth_error v26 0%nat) in Ok (Cardinal_beq (Direction_cardinal v27 false) Cd_OHD)) (
    chk 495 (let! v28 := deref v18 in let! v29 := (VicinityGroup_directions v28) in let! v30 := deref (List.nth_error v29 1%nat) in Ok (Cardinal_beq (Direction_cardinal v30 false) Cd_W)) (
    chk 496 (let! v31 := deref v18 in Ok (VicinityGroup_isValid v31)) (
    None))))))))))))))))))))).

Definition t_VicinityGroup_parseCB_DSNT : option N :=
    step 506 ((VicinityGroup_parse "CB" RP_RMK md_default)) (fun v1 => 
    chk 507 (Ok (has_value v1)) (
    step 509 (let! v2 := deref v1 in VicinityGroup_append v2 "DSNT" RP_RMK md_default) (fun p => let v3 := Some (fst p) in let v4 := snd p in 
    chk 509 (Ok (AppendResult_beq v4 APPENDED)) (
    step 510 (let! v5 := deref v3 in VicinityGroup_append v5 "" RP_RMK md_default) (fun p => let v6 := Some (fst p) in let v7 := snd p in 
    chk 510 (Ok (AppendResult_beq v7 NOT_APPENDED)) (
    chk 512 (let! v8 := deref v6 in Ok (VcType_beq (vc_t v8) Vc_CUMULONIMBUS)) (
    chk 513 (let! v9 := deref v6 in Ok (DistModifier_beq (distModifier (vc_dist v9)) DM_DISTANT)) (
    chk 514 (let! v10 := deref v6 in Ok (negb (Distance_isValue (vc_dist v10)))) (
    chk 515 (let! v11 := deref v6 in Ok (Cardinal_beq (Direction_cardinal (vc_movDir v11) false) Cd_NOT_REPORTED)) (
    chk 516 (let! v12 := deref v6 in let! v13 := (VicinityGroup_directions v12) in Ok (N.eqb (N.of_nat (List.length v13)) 0%N)) (
    chk 517 (let! v14 := deref v6 in Ok (VicinityGroup_isValid v14)) (
    None)))))))))))).

Definition t_VicinityGroup_parseCB_DSNT_N_SE : option N :=
    step 521 ((VicinityGroup_parse "CB" RP_RMK md_default)) (fun v1 => 
    chk 522 (Ok (has_value v1)) (
    step 524 (let! v2 := deref v1 in VicinityGroup_append v2 "DSNT" RP_RMK md_default) (fun p => let v3 := Some (fst p) in let v4 := snd p in 
    chk 524 (Ok (AppendResult_beq v4 APPENDED)) (
    step 525 (let! v5 := deref v3 in VicinityGroup_append v5 "N-SE" RP_RMK md_default) (fun p => let v6 := Some (fst p) in let v7 := snd p in 
    chk 525 (Ok (AppendResult_beq v7 APPENDED)) (
    step 526 (let! v8 := deref v6 in VicinityGroup_append v8 "" RP_RMK md_default) (fun p => let v9 := Some (fst p) in let v10 := snd p in 
    chk 526 (Ok (AppendResult_beq v10 NOT_APPENDED)) (
    chk 528 (let! v11 := deref v9 in Ok (VcType_beq (vc_t v11) Vc_CUMULONIMBUS)) (
    chk 529 (let! v12 := deref v9 in Ok (DistModifier_beq (distModifier (vc_dist v12)) DM_DISTANT)) (
    chk 530 (let! v13 := deref v9 in Ok (negb (Distance_isValue (vc_dist v13)))) (
    chk 531 (let! v14 := deref v9 in Ok (Cardinal_beq (Direction_cardinal (vc_movDir v14) false) Cd_NOT_REPORTED)) (
    chk 532 (let! v15 := deref v9 in let! v16 := (VicinityGroup_directions v15) in Ok (N.eqb (N.of_nat (List.length v16)) 4%N)) (
    chk 533 (let! v17 := deref v9 in let! v18 := (VicinityGroup_directions v17) in let! v19 := deref (List.nth_error v18 0%nat) in Ok (Cardinal_beq (Direction_cardinal v19 false) Cd_N)) (
    chk 534 (let! v20 := deref v9 in let! v21 := (VicinityGroup_directions v20) in let! v22 := deref (List.nth_error v21 1%nat) in Ok (Cardinal_beq (Direction_cardinal v22 false) Cd_NE)) (
    chk 535 (let! v23 := deref v9 in let! v24 := (VicinityGroup_directions v23) in let! v25 := deref (List.nth_error v24 2%nat) in Ok (Cardinal_beq (Direction_cardinal v25 false) Cd_E)) (
    chk 536 (let! v26 := deref v9 in let! v27 := (VicinityGroup_directions v26) in let! v28 := deref (List.nth_error v27 3%nat) in Ok (Cardinal_beq (Direction_cardinal v28 false) Cd_SE)) (
    chk 537 (let! v29 := deref v9 in Ok (VicinityGroup_isValid v29)) (
    None)))))))))))))))))).

Definition t_VicinityGroup_parseCB_VC : option N :=
    step 541 ((VicinityGroup_parse "CB" RP_RMK md_default)) (fun v1 => 
    chk 542 (Ok (has_value v1)) (
    step 544 (let! v2 := deref v1 in VicinityGroup_append v2 "VC" RP_RMK md_default) (fun p => let v3 := Some (fst p) in let v4 := snd p in 
    chk 544 (Ok (AppendResult_beq v4 APPENDED)) (
    step 545 (let! v5 := deref v3 in VicinityGroup_append v5 "" RP_RMK md_default) (fun p => let v6 := Some (fst p) in let v7 := snd p in 
    chk 545 (Ok (AppendResult_beq v7 NOT_APPENDED)) (
    chk 547 (let! v8 := deref v6 in Ok (VcType_beq (vc_t v8) Vc_CUMULONIMBUS)) (
    chk 548 (let! v9 := deref v6 in Ok (DistModifier_beq (distModifier (vc_dist v9)) DM_VICINITY)) (
    chk 549 (let! v10 := deref v6 in Ok (negb (Distance_isValue (vc_dist v10)))) (
    chk 550 (let! v11 := deref v6 in Ok (Cardinal_beq (Direction_cardinal (vc_movDir v11) false) Cd_NOT_REPORTED)) (
    chk 551 (let! v12 := deref v6 in let! v13 := (VicinityGroup_directions v12) in Ok (N.eqb (N.of_nat (List.length v13)) 0%N)) (
    chk 552 (let! v14 := deref v6 in Ok (VicinityGroup_isValid v14)) (
    None)))))))))))).

Definition t_VicinityGroup_parseCB_VC_N_SE : option N :=
    step 556 ((VicinityGroup_parse "CB" RP_RMK md_default)) (fun v1 => 
    chk 557 (Ok (has_value v1)) (
    step 559 (let! v2 := deref v1 in VicinityGroup_append v2 "VC" RP_RMK md_default) (fun p => let v3 := Some (fst p) in let v4 := snd p in 
    chk 559 (Ok (AppendResult_beq v4 APPENDED)) (
    step 560 (let! v5 := deref v3 in VicinityGroup_append v5 "N-SE" RP_RMK md_default) (fun p => let v6 := Some (fst p) in let v7 := snd p in 
    chk 560 (Ok (AppendResult_beq v7 APPENDED)) (
    step 561 (let! v8 := deref v6 in VicinityGroup_append v8 "" RP_RMK md_default) (fun p => let v9 := Some (fst p) in let v10 := snd p in 
    chk 561 (Ok (AppendResult_beq v10 NOT_APPENDED)) (
    chk 563 (let! v11 := deref v9 in Ok (VcType_beq (vc_t v11) Vc_CUMULONIMBUS)) (
    chk 564 (let! v12 := deref v9 in Ok (DistModifier_beq (distModifier (vc_dist v12)) DM_VICINITY)) (
    chk 565 (let! v13 := deref v9 in Ok (negb (Distance_isValue (vc_dist v13)))) (
    chk 566 (let! v14 := deref v9 in Ok (Cardinal_beq (Direction_cardinal (vc_movDir v14) false) Cd_NOT_REPORTED)) (
    chk 567 (let! v15 := deref v9 in let! v16 := (VicinityGroup_directions v15) in Ok (N.eqb (N.of_nat (List.length v16)) 4%N)) (
    chk 568 (let! v17 := deref v9 in let! v18 := (VicinityGroup_directions v17) in let! v19 := deref (List.nth_error v18 0%nat) in Ok (Cardinal_beq (Direction_cardinal v19 false) Cd_N)) (
    chk 569 (let! v20 := deref v9 in let! v21 := (VicinityGroup_directions v20) in let! v22 := deref (List.nth_error v21 1%nat) in Ok (Cardinal_beq (Direction_cardinal v22 false) Cd_NE)) (
    chk 570 (let! v23 := deref v9 in let! v24 := (VicinityGroup_directions v23) in let! v25 := deref (List.nth_error v24 2%nat) in Ok (Cardinal_beq (Direction_cardinal v25 false) Cd_E)) (
    chk 571 (let! v26 := deref v9 in let! v27 := (VicinityGroup_directions v26) in let! v28 := deref (List.nth_error v27 3%nat) in Ok (Cardinal_beq (Direction_cardinal v28 false) Cd_SE)) (
    chk 572 (let! v29 := deref v9 in Ok (VicinityGroup_isValid v29)) (
    None)))))))))))))))))).

Definition t_VicinityGroup_parseCB_15KM_E : option N :=
    step 576 ((VicinityGroup_parse "CB" RP_RMK md_default)) (fun v1 => 
    chk 577 (Ok (has_value v1)) (
    step 579 (let! v2 := deref v1 in VicinityGroup_append v2 "15KM" RP_RMK md_default) (fun p => let v3 := Some (fst p) in let v4 := snd p in 
    chk 579 (Ok (AppendResult_beq v4 APPENDED)) (
    step 580 (let! v5 := deref v3 in VicinityGroup_append v5 "E" RP_RMK md_default) (fun p => let v6 := Some (fst p) in let v7 := snd p in 
    chk 580 (Ok (AppendResult_beq v7 APPENDED)) (
    step 581 (let! v8 := deref v6 in VicinityGroup_append v8 "" RP_RMK md_default) (fun p => let v9 := Some (fst p) in let v10 := snd p in 
    chk 581 (Ok (AppendResult_beq v10 NOT_APPENDED)) (
    chk 583 (let! v11 := deref v9 in Ok (VcType_beq (vc_t v11) Vc_CUMULONIMBUS)) (
    chk 584 (let! v12 := deref v9 in Ok (DistModifier_beq (distModifier (vc_dist v12)) DM_NONE)) (
    chk 585 (let! v13 := deref v9 in Ok (has_value (Distance_distance (vc_dist v13)))) (
    chk 586 (let! v14 := deref v9 in let! v15 := deref (Distance_distance (vc_dist v14)) in Ok (near v15 (dlit (15000) 1) (dlit (1) 200))) (
    chk 587 (let! v16 := deref v9 in Ok (DistUnit_beq (distUnit (vc_dist v16)) METERS)) (
    chk 588 (let! v17 := deref v9 in Ok (Cardinal_beq (Direction_cardinal (vc_movDir v17) false) Cd_NOT_REPORTED)) (
    chk 589 (let! v18 := deref v9 in let! v19 := (VicinityGroup_directions v18) in Ok (N.eqb (N.of_nat (List.length v19)) 1%N)) (
    chk 590 (let! v20 := deref v9 in let! v21 := (VicinityGroup_directions v20) in let! v22 := deref (List.nth_error v21 0%nat) in Ok (Cardinal_beq (Direction_cardinal v22 false) Cd_E)) (
    chk 591 (let! v23 := deref v9 in Ok (VicinityGroup_isValid v23)) (
    None))))))))))))))))).

Definition t_VicinityGroup_parseCB_DSNT_E_SE_MOV_E : option N :=
    step 595 ((VicinityGroup_parse "CB" RP_RMK md_default)) (fun v1 => 
    chk 596 (Ok (has_value v1)) (
    step 598 (let! v2 := deref v1 in VicinityGroup_append v2 "DSNT" RP_RMK md_default) (fun p => let v3 := Some (fst p) in let v4 := snd p in 
    chk 598 (Ok (AppendResult_beq v4 APPENDED)) (
    step 599 (let! v5 := deref v3 in VicinityGroup_append v5 "E-SE" RP_RMK md_default) (fun p => let v6 := Some (fst p) in let v7 := snd p in 
    chk 599 (Ok (AppendResult_beq v7 APPENDED)) (
    step 600 (let! v8 := deref v6 in VicinityGroup_append v8 "MOV" RP_RMK md_default) (fun p => let v9 := Some (fst p) in let v10 := snd p in 
    chk 600 (Ok (AppendResult_beq v10 APPENDED)) (
    step 601 (let! v11 := deref v9 in VicinityGroup_append v11 "E" RP_RMK md_default) (fun p => let v12 := Some (fst p) in let v13 := snd p in 
    chk 601 (Ok (AppendResult_beq v13 APPENDED)) (
    step 602 (let! v14 := deref v12 in VicinityGroup_append v14 "" RP_RMK md_default) (fun p => let v15 := Some (fst p) in let v16 := snd p in 
    chk 602 (Ok (AppendResult_beq v16 NOT_APPENDED)) (
    chk 604 (let! v17 := deref v15 in Ok (VcType_beq (vc_t v17) Vc_CUMULONIMBUS)) (
    chk 605 (let! v18 := deref v15 in Ok (DistModifier_beq (distModifier (vc_dist v18)) DM_DISTANT)) (
    chk 606 (let! v19 := deref v15 in Ok (negb (Distance_isValue (vc_dist v19)))) (
    chk 607 (let! v20 := deref v15 in Ok (Cardinal_beq (Direction_cardinal (vc_movDir v20) false) Cd_E)) (
    chk 608 (let! v21 := deref v15 in let! v22 := (VicinityGroup_directions v21) in Ok (N.eqb (N.of_nat (List.length v22)) 2%N)) (
    chk 609 (let! v23 := deref v15 in let! v24 := (VicinityGroup_directions v23) in let! v25 := deref (List.nth_error v24 0%nat) in Ok (Cardinal_beq (Direction_cardinal v25 false) Cd_E)) (
    chk 610 (let! v26 := deref v15 in let! v27 := (VicinityGroup_directions v26) in let! v28 := deref (List.nth_error v27 1%nat) in Ok (Cardinal_beq (Direction_cardinal v28 false) Cd_SE)) (
    chk 611 (let! v29 := deref v15 in Ok (VicinityGroup_isValid v29)) (
    None)))))))))))))))))))).

Definition t_VicinityGroup_parseCB_5KM_E_AND_OHD_MOV_E : option N :=
    step 615 ((VicinityGroup_parse "CB" RP_RMK md_default)) (fun v1 => 
    chk 616 (Ok (has_value v1)) (
    step 618 (let! v2 := deref v1 in VicinityGroup_append v2 "5KM" RP_RMK md_default) (fun p => let v3 := Some (fst p) in let v4 := snd p in 
    chk 618 (Ok (AppendResult_beq v4 APPENDED)) (
    step 619 (let! v5 := deref v3 in VicinityGroup_append v5 "E" RP_RMK md_default) (fun p => let v6 := Some (fst p) in let v7 := snd p in 
    chk 619 (Ok (AppendResult_beq v7 APPENDED)) (
    step 620 (let! v8 := deref v6 in VicinityGroup_append v8 "AND" RP_RMK md_default) (fun p => let v9 := Some (fst p) in let v10 := snd p in 
    chk 620 (Ok (AppendResult_beq v10 APPENDED)) (
    step 621 (let! v11 := deref v9 in VicinityGroup_append v11 "OHD" RP_RMK md_default) (fun p => let v12 := Some (fst p) in let v13 := snd p in 
    chk 621 (Ok (AppendResult_beq v13 APPENDED)) (
    step 622 (let! v14 := deref v12 in VicinityGroup_append v14 "MOV" RP_RMK md_default) (fun p => let v15 := Some (fst p) in let v16 := snd p in 
    chk 622 (Ok (AppendResult_beq v16 APPENDED)) (
    step 623 (let! v17 := deref v15 in VicinityGroup_append v17 "E" RP_RMK md_default) (fun p => let v18 := Some (fst p) in let v19 := snd p in 
    chk 623 (Ok (AppendResult_beq v19 APPENDED)) (
    step 624 (let! v20 := deref v18 in VicinityGroup_append v20 "" RP_RMK md_default) (fun p => let v21 := Some (fst p) in let v22 := snd p in 
    chk 624 (Ok (AppendResult_beq v22 NOT_APPENDED)) (
    chk 626 (let! v23 := deref v21 in Ok (VcType_beq (vc_t v23) Vc_CUMULONIMBUS)) (
    chk 627 (let! v24 := deref v21 in Ok (DistModifier_beq (distModifier (vc_dist v24)) DM_NONE)) (
    chk 628 (let! v25 := deref v21 in Ok (has_value (Distance_distance (vc_dist v25)))) (
    chk 629 (let! v26 := deref v21 in let! v27 := deref (Distance_distance (vc_dist v26)) in Ok (near v27 (dlit (5000) 1) (dlit (1) 200))) (
    chk 630 (let! v28 := deref v21 in Ok (DistUnit_beq (distUnit (vc_dist v28)) METERS)) (
    chk 631 (let! v29 := deref v21 in Ok (Cardinal_beq (Direction_cardinal (vc_movDir v29) false) Cd_E)) (
    chk 632 (let! v30 := deref v21 in let! v31 := (VicinityGroup_directions v30) in Ok (N.eqb (N.of_nat (List.length v31)) 2%N)) (
    chk 633 (let! v32 := deref v21 in let! v33 := (VicinityGroup_directions v32) in let! v34 := deref (List.nth_error v33 0%nat) in Ok (Cardinal_beq (Direction_cardinal v34 false) Cd_E)) (
    chk 634 (let! v35 := deref v21 in let! v36 := (VicinityGroup_directions v35) in let! v37 := deref (List.nth_error v36 1%nat) in Ok (Cardinal_beq (Direction_cardinal v37 false) Cd_OHD)) (
    chk 635 (let! v38 := deref v21 in Ok (VicinityGroup_isValid v38)) (
    None)))))))))))))))))))))))))).

Definition t_VicinityGroup_parseCB_40KM_E_MOV_UNKNOWN : option N :=
    step 639 ((VicinityGroup_parse "CB" RP_RMK md_default)) (fun v1 => 
    chk 640 (Ok (has_value v1)) (
    step 642 (let! v2 := deref v1 in VicinityGroup_append v2 "40KM" RP_RMK md_default) (fun p => let v3 := Some (fst p) in let v4 := snd p in 
    chk 642 (Ok (AppendResult_beq v4 APPENDED)) (
    step 643 (let! v5 := deref v3 in VicinityGroup_append v5 "E" RP_RMK md_default) (fun p => let v6 := Some (fst p) in let v7 := snd p in 
    chk 643 (Ok (AppendResult_beq v7 APPENDED)) (
    step 644 (let! v8 := deref v6 in VicinityGroup_append v8 "MOV" RP_RMK md_default) (fun p => let v9 := Some (fst p) in let v10 := snd p in 
    chk 644 (Ok (AppendResult_beq v10 APPENDED)) (
    step 645 (let! v11 := deref v9 in VicinityGroup_append v11 "UNKNOWN" RP_RMK md_default) (fun p => let v12 := Some (fst p) in let v13 := snd p in 
    chk 645 (Ok (AppendResult_beq v13 APPENDED)) (
    step 646 (let! v14 := deref v12 in VicinityGroup_append v14 "" RP_RMK md_default) (fun p => let v15 := Some (fst p) in let v16 := snd p in 
    chk 646 (Ok (AppendResult_beq v16 NOT_APPENDED)) (
    chk 648 (let! v17 := deref v15 in Ok (VcType_beq (vc_t v17) Vc_CUMULONIMBUS)) (
    chk 649 (let! v18 := deref v15 in Ok (DistModifier_beq (distModifier (vc_dist v18)) DM_NONE)) (
    chk 650 (let! v19 := deref v15 in Ok (has_value (Distance_distance (vc_dist v19)))) (
    chk 651 (let! v20 := deref v15 in let! v21 := deref (Distance_distance (vc_dist v20)) in Ok (near v21 (dlit (40000) 1) (dlit (1) 200))) (
    chk 652 (let! v22 := deref v15 in Ok (DistUnit_beq (distUnit (vc_dist v22)) METERS)) (
    chk 653 (let! v23 := deref v15 in Ok (Cardinal_beq (Direction_cardinal (vc_movDir v23) false) Cd_UNKNOWN)) (
    chk 654 (let! v24 := deref v15 in let! v25 := (VicinityGroup_directions v24) in Ok (N.eqb (N.of_nat (List.length v25)) 1%N)) (
    chk 655 (let! v26 := deref v15 in let! v27 := (VicinityGroup_directions v26) in let! v28 := deref (List.nth_error v27 0%nat) in Ok (Cardinal_beq (Direction_cardinal v28 false) Cd_E)) (
    chk 656 (let! v29 := deref v15 in Ok (VicinityGroup_isValid v29)) (
    None))))))))))))))))))))).

Definition t_VicinityGroup_parseROTOR_other : option N :=
    step 666 ((VicinityGroup_parse "ROTOR" RP_RMK md_default)) (fun v1 => 
    chk 667 (Ok (has_value v1)) (
    step 668 (let! v2 := deref v1 in VicinityGroup_append v2 "N" RP_RMK md_default) (fun p => let v3 := Some (fst p) in let v4 := snd p in 
    chk 668 (Ok (AppendResult_beq v4 GROUP_INVALIDATED)) (
    step 670 ((VicinityGroup_parse "ROTOR" RP_RMK md_default)) (fun v5 => 
    chk 671 (Ok (has_value v5)) (
    step 672 (let! v6 := deref v5 in VicinityGroup_append v6 "DSNT" RP_RMK md_default) (fun p => let v7 := Some (fst p) in let v8 := snd p in 
    chk 672 (Ok (AppendResult_beq v8 GROUP_INVALIDATED)) (
    step 674 ((VicinityGroup_parse "ROTOR" RP_RMK md_default)) (fun v9 => 
    chk 675 (Ok (has_value v9)) (
    step 676 (let! v10 := deref v9 in VicinityGroup_append v10 "TEST" RP_RMK md_default) (fun p => let v11 := Some (fst p) in let v12 := snd p in 
    chk 676 (Ok (AppendResult_beq v12 GROUP_INVALIDATED)) (
    step 678 ((VicinityGroup_parse "ROTOR" RP_RMK md_default)) (fun v13 => 
    chk 679 (Ok (has_value v13)) (
    step 680 (let! v14 := deref v13 in VicinityGroup_append v14 "" RP_RMK md_default) (fun p => let v15 := Some (fst p) in let v16 := snd p in 
    chk 680 (Ok (AppendResult_beq v16 GROUP_INVALIDATED)) (
    step 682 ((VicinityGroup_parse "ROTOR" RP_RMK md_default)) (fun v17 => 
    chk 683 (Ok (has_value v17)) (
    step 684 (let! v18 := deref v17 in VicinityGroup_append v18 "MOV" RP_RMK md_default) (fun p => let v19 := Some (fst p) in let v20 := snd p in 
    chk 684 (Ok (AppendResult_beq v20 GROUP_INVALIDATED)) (
    step 686 ((VicinityGroup_parse "ROTOR" RP_RMK md_default)) (fun v21 => 
    chk 687 (Ok (has_value v21)) (
    step 688 (let! v22 := deref v21 in VicinityGroup_append v22 "AND" RP_RMK md_default) (fun p => let v23 := Some (fst p) in let v24 := snd p in 
    chk 688 (Ok (AppendResult_beq v24 GROUP_INVALIDATED)) (
    step 690 ((VicinityGroup_parse "ROTOR" RP_RMK md_default)) (fun v25 => 
    chk 691 (Ok (has_value v25)) (
    step 692 (let! v26 := deref v25 in VicinityGroup_append v26 "ROTOR" RP_RMK md_default) (fun p => let v27 := Some (fst p) in let v28 := snd p in 
    chk 692 (Ok (AppendResult_beq v28 GROUP_INVALIDATED)) (
    None)))))))))))))))))))))))))))).

Definition t_VicinityGroup_parseCB_other : option N :=
    step 696 ((VicinityGroup_parse "CB" RP_RMK md_default)) (fun v1 => 
    chk 697 (Ok (has_value v1)) (
    step 698 (let! v2 := deref v1 in VicinityGroup_append v2 "CLD" RP_RMK md_default) (fun p => let v3 := Some (fst p) in let v4 := snd p in 
    chk 698 (Ok (AppendResult_beq v4 GROUP_INVALIDATED)) (
    step 700 ((VicinityGroup_parse "CB" RP_RMK md_default)) (fun v5 => 
    chk 701 (Ok (has_value v5)) (
    step 702 (let! v6 := deref v5 in VicinityGroup_append v6 "TCU" RP_RMK md_default) (fun p => let v7 := Some (fst p) in let v8 := snd p in 
    chk 702 (Ok (AppendResult_beq v8 GROUP_INVALIDATED)) (
    step 704 ((VicinityGroup_parse "CB" RP_RMK md_default)) (fun v9 => 
    chk 705 (Ok (has_value v9)) (
    step 706 (let! v10 := deref v9 in VicinityGroup_append v10 "TEST" RP_RMK md_default) (fun p => let v11 := Some (fst p) in let v12 := snd p in 
    chk 706 (Ok (AppendResult_beq v12 GROUP_INVALIDATED)) (
    step 708 ((VicinityGroup_parse "CB" RP_RMK md_default)) (fun v13 => 
    chk 709 (Ok (has_value v13)) (
    step 710 (let! v14 := deref v13 in VicinityGroup_append v14 "UNKNOWN" RP_RMK md_default) (fun p => let v15 := Some (fst p) in let v16 := snd p in 
    chk 710 (Ok (AppendResult_beq v16 GROUP_INVALIDATED)) (
    step 712 ((VicinityGroup_parse "CB" RP_RMK md_default)) (fun v17 => 
    chk 713 (Ok (has_value v17)) (
    step 714 (let! v18 := deref v17 in VicinityGroup_append v18 "" RP_RMK md_default) (fun p => let v19 := Some (fst p) in let v20 := snd p in 
    chk 714 (Ok (AppendResult_beq v20 GROUP_INVALIDATED)) (
    step 716 ((VicinityGroup_parse "CB" RP_RMK md_default)) (fun v21 => 
    chk 717 (Ok (has_value v21)) (
    step 718 (let! v22 := deref v21 in VicinityGroup_append v22 "AND" RP_RMK md_default) (fun p => let v23 := Some (fst p) in let v24 := snd p in 
    chk 718 (Ok (AppendResult_beq v24 GROUP_INVALIDATED)) (
    step 720 ((VicinityGroup_parse "CB" RP_RMK md_default)) (fun v25 => 
    chk 721 (Ok (has_value v25)) (
    step 722 (let! v26 := deref v25 in VicinityGroup_append v26 "MOV" RP_RMK md_default) (fun p => let v27 := Some (fst p) in let v28 := snd p in 
    chk 722 (Ok (AppendResult_beq v28 GROUP_INVALIDATED)) (
    None)))))))))))))))))))))))))))).

Definition t_VicinityGroup_parseCB_W_AND_NW_MOV_MOV : option N :=
    step 726 ((VicinityGroup_parse "CB" RP_RMK md_default)) (fun v1 => 
    chk 727 (Ok (has_value v1)) (
    step 729 (let! v2 := deref v1 in VicinityGroup_append v2 "W" RP_RMK md_default) (fun p => let v3 := Some (fst p) in let v4 := snd p in 
    chk 729 (Ok (AppendResult_beq v4 APPENDED)) (
    step 730 (let! v5 := deref v3 in VicinityGroup_append v5 "AND" RP_RMK md_default) (fun p => let v6 := Some (fst p) in let v7 := snd p in 
    chk 730 (Ok (AppendResult_beq v7 APPENDED)) (
    step 731 (let! v8 := deref v6 in VicinityGroup_append v8 "NW" RP_RMK md_default) (fun p => let v9 := Some (fst p) in let v10 := snd p in 
    chk 731 (Ok (AppendResult_beq v10 APPENDED)) (
    step 732 (let! v11 := deref v9 in VicinityGroup_append v11 "MOV" RP_RMK md_default) (fun p => let v12 := Some (fst p) in let v13 := snd p in 
    chk 732 (Ok (AppendResult_beq v13 APPENDED)) (
    step 733 (let! v14 := deref v12 in VicinityGroup_append v14 "MOV" RP_RMK md_default) (fun p => let v15 := Some (fst p) in let v16 := snd p in 
    chk 733 (Ok (AppendResult_beq v16 GROUP_INVALIDATED)) (
    None)))))))))))).

Definition t_VicinityGroup_parseCB_N_AND_other : option N :=
    step 737 ((VicinityGroup_parse "CB" RP_RMK md_default)) (fun v1 => 
    chk 738 (Ok (has_value v1)) (
    step 739 (let! v2 := deref v1 in VicinityGroup_append v2 "N" RP_RMK md_default) (fun p => let v3 := Some (fst p) in let v4 := snd p in 
    chk 739 (Ok (AppendResult_beq v4 APPENDED)) (
    step 740 (let! v5 := deref v3 in VicinityGroup_append v5 "AND" RP_RMK md_default) (fun p => let v6 := Some (fst p) in let v7 := snd p in 
    chk 740 (Ok (AppendResult_beq v7 APPENDED)) (
    step 741 (let! v8 := deref v6 in VicinityGroup_append v8 "CLD" RP_RMK md_default) (fun p => let v9 := Some (fst p) in let v10 := snd p in 
    chk 741 (Ok (AppendResult_beq v10 GROUP_INVALIDATED)) (
    step 743 ((VicinityGroup_parse "CB" RP_RMK md_default)) (fun v11 => 
    chk 744 (Ok (has_value v11)) (
    step 745 (let! v12 := deref v11 in VicinityGroup_append v12 "N" RP_RMK md_default) (fun p => let v13 := Some (fst p) in let v14 := snd p in 
    chk 745 (Ok (AppendResult_beq v14 APPENDED)) (
    step 746 (let! v15 := deref v13 in VicinityGroup_append v15 "AND" RP_RMK md_default) (fun p => let v16 := Some (fst p) in let v17 := snd p in 
    chk 746 (Ok (AppendResult_beq v17 APPENDED)) (
    step 747 (let! v18 := deref v16 in VicinityGroup_append v18 "TCU" RP_RMK md_default) (fun p => let v19 := Some (fst p) in let v20 := snd p in 
    chk 747 (Ok (AppendResult_beq v20 GROUP_INVALIDATED)) (
    step 749 ((VicinityGroup_parse "CB" RP_RMK md_default)) (fun v21 => 
    chk 750 (Ok (has_value v21)) (
    step 751 (let! v22 := deref v21 in VicinityGroup_append v22 "N" RP_RMK md_default) (fun p => let v23 := Some (fst p) in let v24 := snd p in 
    chk 751 (Ok (AppendResult_beq v24 APPENDED)) (
    step 752 (let! v25 := deref v23 in VicinityGroup_append v25 "AND" RP_RMK md_default) (fun p => let v26 := Some (fst p) in let v27 := snd p in 
    chk 752 (Ok (AppendResult_beq v27 APPENDED)) (
    step 753 (let! v28 := deref v26 in VicinityGroup_append v28 "TEST" RP_RMK md_default) (fun p => let v29 := Some (fst p) in let v30 := snd p in 
    chk 753 (Ok (AppendResult_beq v30 GROUP_INVALIDATED)) (
    step 755 ((VicinityGroup_parse "CB" RP_RMK md_default)) (fun v31 => 
    chk 756 (Ok (has_value v31)) (
    step 757 (let! v32 := deref v31 in VicinityGroup_append v32 "N" RP_RMK md_default) (fun p => let v33 := Some (fst p) in let v34 := snd p in 
    chk 757 (Ok (AppendResult_beq v34 APPENDED)) (
    step 758 (let! v35 := deref v33 in VicinityGroup_append v35 "AND" RP_RMK md_default) (fun p => let v36 := Some (fst p) in let v37 := snd p in 
    chk 758 (Ok (AppendResult_beq v37 APPENDED)) (
    step 759 (let! v38 := deref v36 in VicinityGroup_append v38 "UNKNOWN" RP_RMK md_default) (fun p => let v39 := Some (fst p) in let v40 := snd p in 
    chk 759 (Ok (AppendResult_beq v40 GROUP_INVALIDATED)) (
    step 761 ((VicinityGroup_parse "CB" RP_RMK md_default)) (fun v41 => 
    chk 762 (Ok (has_value v41)) (
    step 763 (let! v42 := deref v41 in VicinityGroup_append v42 "N" RP_RMK md_default) (fun p => let v43 := Some (fst p) in let v44 := snd p in 
    chk 763 (Ok (AppendResult_beq v44 APPENDED)) (
    step 764 (let! v45 := deref v43 in VicinityGroup_append v45 "AND" RP_RMK md_default) (fun p => let v46 := Some (fst p) in let v47 := snd p in 
    chk 764 (Ok (AppendResult_beq v47 APPENDED)) (
    step 765 (let! v48 := deref v46 in VicinityGroup_append v48 "AND" RP_RMK md_default) (fun p => let v49 := Some (fst p) in let v50 := snd p in 
    chk 765 (Ok (AppendResult_beq v50 GROUP_INVALIDATED)) (
    step 767 ((VicinityGroup_parse "CB" RP_RMK md_default)) (fun v51 => 
    chk 768 (Ok (has_value v51)) (
    step 769 (let! v52 := deref v51 in VicinityGroup_append v52 "N" RP_RMK md_default) (fun p => let v53 := Some (fst p) in let v54 := snd p in 
    chk 769 (Ok (AppendResult_beq v54 APPENDED)) (
    step 770 (let! v55 := deref v53 in VicinityGroup_append v55 "AND" RP_RMK md_default) (fun p => let v56 := Some (fst p) in let v57 := snd p in 
    chk 770 (Ok (AppendResult_beq v57 APPENDED)) (
    step 771 (let! v58 := deref v56 in VicinityGroup_append v58 "" RP_RMK md_default) (fun p => let v59 := Some (fst p) in let v60 := snd p in 
    chk 771 (Ok (AppendResult_beq v60 GROUP_INVALIDATED)) (
    step 773 ((VicinityGroup_parse "CB" RP_RMK md_default)) (fun v61 => 
    chk 774 (Ok (has_value v61)) (
    step 775 (let! v62 := deref v61 in VicinityGroup_append v62 "N" RP_RMK md_default) (fun p => let v63 := Some (fst p) in let v64 := snd p in 
    chk 775 (Ok (AppendResult_beq v64 APPENDED)) (
    step 776 (let! v65 := deref v63 in VicinityGroup_append v65 "AND" RP_RMK md_default) (fun p => let v66 := Some (fst p) in let v67 := snd p in 
    chk 776 (Ok (AppendResult_beq v67 APPENDED)) (
    step 777 (let! v68 := deref v66 in VicinityGroup_append v68 "MOV" RP_RMK md_default) (fun p => let v69 := Some (fst p) in let v70 := snd p in 
    chk 777 (Ok (AppendResult_beq v70 GROUP_INVALIDATED)) (
    None)))))))))))))))))))))))))))))))))))))))))))))))))))))))).

Definition t_VicinityGroup_parseCB_N_SE_MOV_other : option N :=
    step 781 ((VicinityGroup_parse "CB" RP_RMK md_default)) (fun v1 => 
    chk 782 (Ok (has_value v1)) (
    step 783 (let! v2 := deref v1 in VicinityGroup_append v2 "N-SE" RP_RMK md_default) (fun p => let v3 := Some (fst p) in let v4 := snd p in 
    chk 783 (Ok (AppendResult_beq v4 APPENDED)) (
    step 784 (let! v5 := deref v3 in VicinityGroup_append v5 "MOV" RP_RMK md_default) (fun p => let v6 := Some (fst p) in let v7 := snd p in 
    chk 784 (Ok (AppendResult_beq v7 APPENDED)) (
    step 785 (let! v8 := deref v6 in VicinityGroup_append v8 "CB" RP_RMK md_default) (fun p => let v9 := Some (fst p) in let v10 := snd p in 
    chk 785 (Ok (AppendResult_beq v10 GROUP_INVALIDATED)) (
    step 787 ((VicinityGroup_parse "CB" RP_RMK md_default)) (fun v11 => 
    chk 788 (Ok (has_value v11)) (
    step 789 (let! v12 := deref v11 in VicinityGroup_append v12 "N-SE" RP_RMK md_default) (fun p => let v13 := Some (fst p) in let v14 := snd p in 
    chk 789 (Ok (AppendResult_beq v14 APPENDED)) (
    step 790 (let! v15 := deref v13 in VicinityGroup_append v15 "MOV" RP_RMK md_default) (fun p => let v16 := Some (fst p) in let v17 := snd p in 
    chk 790 (Ok (AppendResult_beq v17 APPENDED)) (
    step 791 (let! v18 := deref v16 in VicinityGroup_append v18 "10KM" RP_RMK md_default) (fun p => let v19 := Some (fst p) in let v20 := snd p in 
    chk 791 (Ok (AppendResult_beq v20 GROUP_INVALIDATED)) (
    step 793 ((VicinityGroup_parse "CB" RP_RMK md_default)) (fun v21 => 
    chk 794 (Ok (has_value v21)) (
    step 795 (let! v22 := deref v21 in VicinityGroup_append v22 "N-SE" RP_RMK md_default) (fun p => let v23 := Some (fst p) in let v24 := snd p in 
    chk 795 (Ok (AppendResult_beq v24 APPENDED)) (
    step 796 (let! v25 := deref v23 in VicinityGroup_append v25 "MOV" RP_RMK md_default) (fun p => let v26 := Some (fst p) in let v27 := snd p in 
    chk 796 (Ok (AppendResult_beq v27 APPENDED)) (
    step 797 (let! v28 := deref v26 in VicinityGroup_append v28 "TEST" RP_RMK md_default) (fun p => let v29 := Some (fst p) in let v30 := snd p in 
    chk 797 (Ok (AppendResult_beq v30 GROUP_INVALIDATED)) (
    step 799 ((VicinityGroup_parse "CB" RP_RMK md_default)) (fun v31 => 
    chk 800 (Ok (has_value v31)) (
    step 801 (let! v32 := deref v31 in VicinityGroup_append v32 "N-SE" RP_RMK md_default) (fun p => let v33 := Some (fst p) in let v34 := snd p in 
    chk 801 (Ok (AppendResult_beq v34 APPENDED)) (
    step 802 (let! v35 := deref v33 in VicinityGroup_append v35 "MOV" RP_RMK md_default) (fun p => let v36 := Some (fst p) in let v37 := snd p in 
    chk 802 (Ok (AppendResult_beq v37 APPENDED)) (
    step 803 (let! v38 := deref v36 in VicinityGroup_append v38 "" RP_RMK md_default) (fun p => let v39 := Some (fst p) in let v40 := snd p in 
    chk 803 (Ok (AppendResult_beq v40 GROUP_INVALIDATED)) (
    None)))))))))))))))))))))))))))))))).

Example tests_vicinitygroup_pass : failures
  [("VicinityGroup_parseCB_N", t_VicinityGroup_parseCB_N);
   ("VicinityGroup_parseCBMAM_N", t_VicinityGroup_parseCBMAM_N);
   ("VicinityGroup_parseTS_N", t_VicinityGroup_parseTS_N);
   ("VicinityGroup_parseTCU_N", t_VicinityGroup_parseTCU_N);
   ("VicinityGroup_parseACC_N", t_VicinityGroup_parseACC_N);
   ("VicinityGroup_parseSCSL_N", t_VicinityGroup_parseSCSL_N);
   ("VicinityGroup_parseACSL_N", t_VicinityGroup_parseACSL_N);
   ("VicinityGroup_parseCCSL_N", t_VicinityGroup_parseCCSL_N);
   ("VicinityGroup_parseVIRGA_N", t_VicinityGroup_parseVIRGA_N);
   ("VicinityGroup_parseVCSH_N", t_VicinityGroup_parseVCSH_N);
   ("VicinityGroup_parseFOG_N", t_VicinityGroup_parseFOG_N);
   ("VicinityGroup_parseMIFG_N", t_VicinityGroup_parseMIFG_N);
   ("VicinityGroup_parseBCFG_N", t_VicinityGroup_parseBCFG_N);
   ("VicinityGroup_parseHAZE_N", t_VicinityGroup_parseHAZE_N);
   ("VicinityGroup_parseBLSN_N", t_VicinityGroup_parseBLSN_N);
   ("VicinityGroup_parseBLSA_N", t_VicinityGroup_parseBLSA_N);
   ("VicinityGroup_parseBLDU_N", t_VicinityGroup_parseBLDU_N);
   ("VicinityGroup_parseROTOR_CLD_N", t_VicinityGroup_parseROTOR_CLD_N);
   ("VicinityGroup_parseCB_N_SE", t_VicinityGroup_parseCB_N_SE);
   ("VicinityGroup_parseCB_N__SE", t_VicinityGroup_parseCB_N__SE);
   ("VicinityGroup_parseCB_N_SE_AND_W", t_VicinityGroup_parseCB_N_SE_AND_W);
   ("VicinityGroup_parseCB_OHD_AND_W", t_VicinityGroup_parseCB_OHD_AND_W);
   ("VicinityGroup_parseCB_W_AND_OHD", t_VicinityGroup_parseCB_W_AND_OHD);
   ("VicinityGroup_parseCB_ALQDS", t_VicinityGroup_parseCB_ALQDS);
   ("VicinityGroup_parseCB_N_SE_MOV_N", t_VicinityGroup_parseCB_N_SE_MOV_N);
   ("VicinityGroup_parseCB_OHD_AND_W_MOV_S", t_VicinityGroup_parseCB_OHD_AND_W_MOV_S);
   ("VicinityGroup_parseCB_DSNT", t_VicinityGroup_parseCB_DSNT);
   ("VicinityGroup_parseCB_DSNT_N_SE", t_VicinityGroup_parseCB_DSNT_N_SE);
   ("VicinityGroup_parseCB_VC", t_VicinityGroup_parseCB_VC);
   ("VicinityGroup_parseCB_VC_N_SE", t_VicinityGroup_parseCB_VC_N_SE);
   ("VicinityGroup_parseCB_15KM_E", t_VicinityGroup_parseCB_15KM_E);
   ("VicinityGroup_parseCB_DSNT_E_SE_MOV_E", t_VicinityGroup_parseCB_DSNT_E_SE_MOV_E);
   ("VicinityGroup_parseCB_5KM_E_AND_OHD_MOV_E", t_VicinityGroup_parseCB_5KM_E_AND_OHD_MOV_E);
   ("VicinityGroup_parseCB_40KM_E_MOV_UNKNOWN", t_VicinityGroup_parseCB_40KM_E_MOV_UNKNOWN);
   ("VicinityGroup_parseROTOR_other", t_VicinityGroup_parseROTOR_other);
   ("VicinityGroup_parseCB_other", t_VicinityGroup_parseCB_other);
   ("VicinityGroup_parseCB_W_AND_NW_MOV_MOV", t_VicinityGroup_parseCB_W_AND_NW_MOV_MOV);
   ("VicinityGroup_parseCB_N_AND_other", t_VicinityGroup_parseCB_N_AND_other);
   ("VicinityGroup_parseCB_N_SE_MOV_other", t_VicinityGroup_parseCB_N_SE_MOV_other)] = [].
Proof. vm_compute. reflexivity. Qed.
