(** Generated by tools/gen_tests.py from /repo/test/test_lightninggroup.cpp: the project's own unit tests, run
    against the model. These are tests of the model's fidelity, not properties. *)

From Verif Require Import Prim Regex Float Values Weather Groups1 Groups2 Groups3 Groups4 Parser TestLib.
Local Open Scope string_scope.
Local Open Scope bool_scope.

Definition t_LightningGroup_parseLtg : option N :=
    step 17 ((LightningGroup_parse "LTG" RP_RMK md_default)) (fun v1 => 
    chk 18 (Ok (has_value v1)) (
    step 19 (let! v2 := deref v1 in LightningGroup_append v2 "" RP_RMK md_default) (fun p => let v3 := Some (fst p) in let v4 := snd p in 
    chk 19 (Ok (AppendResult_beq v4 NOT_APPENDED)) (
    chk 21 (let! v5 := deref v3 in Ok (LtFreq_beq (lt_freq v5) Lt_NONE)) (
    chk 22 (let! v6 := deref v3 in Ok (DistModifier_beq (distModifier (lt_dist v6)) DM_NONE)) (
    chk 23 (let! v7 := deref v3 in Ok (negb (lt_cloudGround v7))) (
    chk 24 (let! v8 := deref v3 in Ok (negb (lt_inCloud v8))) (
    chk 25 (let! v9 := deref v3 in Ok (negb (lt_cloudCloud v9))) (
    chk 26 (let! v10 := deref v3 in Ok (negb (lt_cloudAir v10))) (
    chk 27 (let! v11 := deref v3 in Ok (negb (lt_unknown v11))) (
    chk 28 (let! v12 := deref v3 in let! v13 := (LightningGroup_directions v12) in Ok (N.eqb (N.of_nat (List.length v13)) 0%N)) (
    chk 29 (let! v14 := deref v3 in Ok (LightningGroup_isValid v14)) (
    None))))))))))))).

Definition t_LightningGroup_parseLtgDsnt : option N :=
    step 39 ((LightningGroup_parse "LTG" RP_RMK md_default)) (fun v1 => 
    chk 40 (Ok (has_value v1)) (
    step 42 (let! v2 := deref v1 in LightningGroup_append v2 "DSNT" RP_RMK md_default) (fun p => let v3 := Some (fst p) in let v4 := snd p in 
    chk 42 (Ok (AppendResult_beq v4 APPENDED)) (
    step 43 (let! v5 := deref v3 in LightningGroup_append v5 "" RP_RMK md_default) (fun p => let v6 := Some (fst p) in let v7 := snd p in 
    chk 43 (Ok (AppendResult_beq v7 NOT_APPENDED)) (
    chk 45 (let! v8 := deref v6 in Ok (LtFreq_beq (lt_freq v8) Lt_NONE)) (
    chk 46 (let! v9 := deref v6 in Ok (DistModifier_beq (distModifier (lt_dist v9)) DM_DISTANT)) (
    chk 47 (let! v10 := deref v6 in Ok (negb (lt_cloudGround v10))) (
    chk 48 (let! v11 := deref v6 in Ok (negb (lt_inCloud v11))) (
    chk 49 (let! v12 := deref v6 in Ok (negb (lt_cloudCloud v12))) (
    chk 50 (let! v13 := deref v6 in Ok (negb (lt_cloudAir v13))) (
    chk 51 (let! v14 := deref v6 in Ok (negb (lt_unknown v14))) (
    chk 52 (let! v15 := deref v6 in let! v16 := (LightningGroup_directions v15) in Ok (N.eqb (N.of_nat (List.length v16)) 0%N)) (
    chk 53 (let! v17 := deref v6 in Ok (LightningGroup_isValid v17)) (
    None))))))))))))))).

Definition t_LightningGroup_parseLtgDsntAlqds : option N :=
    step 57 ((LightningGroup_parse "LTG" RP_RMK md_default)) (fun v1 => 
    chk 58 (Ok (has_value v1)) (
    step 60 (let! v2 := deref v1 in LightningGroup_append v2 "DSNT" RP_RMK md_default) (fun p => let v3 := Some (fst p) in let v4 := snd p in 
    chk 60 (Ok (AppendResult_beq v4 APPENDED)) (
    step 61 (let! v5 := deref v3 in LightningGroup_append v5 "ALQDS" RP_RMK md_default) (fun p => let v6 := Some (fst p) in let v7 := snd p in 
    chk 61 (Ok (AppendResult_beq v7 APPENDED)) (
    step 62 (let! v8 := deref v6 in LightningGroup_append v8 "" RP_RMK md_default) (fun p => let v9 := Some (fst p) in let v10 := snd p in 
    chk 62 (Ok (AppendResult_beq v10 NOT_APPENDED)) (
    chk 64 (let! v11 := deref v9 in Ok (LtFreq_beq (lt_freq v11) Lt_NONE)) (
    chk 65 (let! v12 := deref v9 in Ok (DistModifier_beq (distModifier (lt_dist v12)) DM_DISTANT)) (
    chk 66 (let! v13 := deref v9 in Ok (negb (lt_cloudGround v13))) (
    chk 67 (let! v14 := deref v9 in Ok (negb (lt_inCloud v14))) (
    chk 68 (let! v15 := deref v9 in Ok (negb (lt_cloudCloud v15))) (
    chk 69 (let! v16 := deref v9 in Ok (negb (lt_cloudAir v16))) (
    chk 70 (let! v17 := deref v9 in Ok (negb (lt_unknown v17))) (
    chk 71 (let! v18 := deref v9 in let! v19 := (LightningGroup_directions v18) in Ok (N.eqb (N.of_nat (List.length v19)) 1%N)) (
    chk 72 (let! v20 := deref v9 in let! v21 := (LightningGroup_directions v20) in let! v22 := deref (List.nth_error v21 0%nat) in Ok (Cardinal_beq (Direction_cardinal v22 false) Cd_ALQDS)) (
    chk 73 (let! v23 := deref v9 in Ok (LightningGroup_isValid v23)) (
    None)))))))))))))))))).

Definition t_LightningGroup_parseLtgVc : option N :=
    step 77 ((LightningGroup_parse "LTG" RP_RMK md_default)) (fun v1 => 
    chk 78 (Ok (has_value v1)) (
    step 80 (let! v2 := deref v1 in LightningGroup_append v2 "VC" RP_RMK md_default) (fun p => let v3 := Some (fst p) in let v4 := snd p in 
    chk 80 (Ok (AppendResult_beq v4 APPENDED)) (
    step 81 (let! v5 := deref v3 in LightningGroup_append v5 "" RP_RMK md_default) (fun p => let v6 := Some (fst p) in let v7 := snd p in 
    chk 81 (Ok (AppendResult_beq v7 NOT_APPENDED)) (
    chk 83 (let! v8 := deref v6 in Ok (LtFreq_beq (lt_freq v8) Lt_NONE)) (
    chk 84 (let! v9 := deref v6 in Ok (DistModifier_beq (distModifier (lt_dist v9)) DM_VICINITY)) (
    chk 85 (let! v10 := deref v6 in Ok (negb (lt_cloudGround v10))) (
    chk 86 (let! v11 := deref v6 in Ok (negb (lt_inCloud v11))) (
    chk 87 (let! v12 := deref v6 in Ok (negb (lt_cloudCloud v12))) (
    chk 88 (let! v13 := deref v6 in Ok (negb (lt_cloudAir v13))) (
    chk 89 (let! v14 := deref v6 in Ok (negb (lt_unknown v14))) (
    chk 90 (let! v15 := deref v6 in let! v16 := (LightningGroup_directions v15) in Ok (N.eqb (N.of_nat (List.length v16)) 0%N)) (
    chk 91 (let! v17 := deref v6 in Ok (LightningGroup_isValid v17)) (
    None))))))))))))))).

Definition t_LightningGroup_parseLtgVcAlqds : option N :=
    step 95 ((LightningGroup_parse "LTG" RP_RMK md_default)) (fun v1 => 
    chk 96 (Ok (has_value v1)) (
    step 98 (let! v2 := deref v1 in LightningGroup_append v2 "VC" RP_RMK md_default) (fun p => let v3 := Some (fst p) in let v4 := snd p in 
    chk 98 (Ok (AppendResult_beq v4 APPENDED)) (
    step 99 (let! v5 := deref v3 in LightningGroup_append v5 "ALQDS" RP_RMK md_default) (fun p => let v6 := Some (fst p) in let v7 := snd p in 
    chk 99 (Ok (AppendResult_beq v7 APPENDED)) (
    step 100 (let! v8 := deref v6 in LightningGroup_append v8 "" RP_RMK md_default) (fun p => let v9 := Some (fst p) in let v10 := snd p in 
    chk 100 (Ok (AppendResult_beq v10 NOT_APPENDED)) (
    chk 102 (let! v11 := deref v9 in Ok (LtFreq_beq (lt_freq v11) Lt_NONE)) (
    chk 103 (let! v12 := deref v9 in Ok (DistModifier_beq (distModifier (lt_dist v12)) DM_VICINITY)) (
    chk 104 (let! v13 := deref v9 in Ok (negb (lt_cloudGround v13))) (
    chk 105 (let! v14 := deref v9 in Ok (negb (lt_inCloud v14))) (
    chk 106 (let! v15 := deref v9 in Ok (negb (lt_cloudCloud v15))) (
    chk 107 (let! v16 := deref v9 in Ok (negb (lt_cloudAir v16))) (
    chk 108 (let! v17 := deref v9 in Ok (negb (lt_unknown v17))) (
    chk 109 (let! v18 := deref v9 in let! v19 := (LightningGroup_directions v18) in Ok (N.eqb (N.of_nat (List.length v19)) 1%N)) (
    chk 110 (let! v20 := deref v9 in let! v21 := (LightningGroup_directions v20) in let! v22 := deref (List.nth_error v21 0%nat) in Ok (Cardinal_beq (Direction_cardinal v22 false) Cd_ALQDS)) (
    chk 111 (let! v23 := deref v9 in Ok (LightningGroup_isValid v23)) (
    None)))))))))))))))))).

Definition t_LightningGroup_parseOcnlLtg : option N :=
    step 120 ((LightningGroup_parse "OCNL" RP_RMK md_default)) (fun v1 => 
    chk 121 (Ok (has_value v1)) (
    step 123 (let! v2 := deref v1 in LightningGroup_append v2 "LTG" RP_RMK md_default) (fun p => let v3 := Some (fst p) in let v4 := snd p in 
    chk 123 (Ok (AppendResult_beq v4 APPENDED)) (
    step 124 (let! v5 := deref v3 in LightningGroup_append v5 "" RP_RMK md_default) (fun p => let v6 := Some (fst p) in let v7 := snd p in 
    chk 124 (Ok (AppendResult_beq v7 NOT_APPENDED)) (
    chk 126 (let! v8 := deref v6 in Ok (LtFreq_beq (lt_freq v8) Lt_OCCASIONAL)) (
    chk 127 (let! v9 := deref v6 in Ok (DistModifier_beq (distModifier (lt_dist v9)) DM_NONE)) (
    chk 128 (let! v10 := deref v6 in Ok (negb (lt_cloudGround v10))) (
    chk 129 (let! v11 := deref v6 in Ok (negb (lt_inCloud v11))) (
    chk 130 (let! v12 := deref v6 in Ok (negb (lt_cloudCloud v12))) (
    chk 131 (let! v13 := deref v6 in Ok (negb (lt_cloudAir v13))) (
    chk 132 (let! v14 := deref v6 in Ok (negb (lt_unknown v14))) (
    chk 133 (let! v15 := deref v6 in let! v16 := (LightningGroup_directions v15) in Ok (N.eqb (N.of_nat (List.length v16)) 0%N)) (
    chk 134 (let! v17 := deref v6 in Ok (LightningGroup_isValid v17)) (
    None))))))))))))))).

Definition t_LightningGroup_parseFrqLtg : option N :=
    step 138 ((LightningGroup_parse "FRQ" RP_RMK md_default)) (fun v1 => 
    chk 139 (Ok (has_value v1)) (
    step 141 (let! v2 := deref v1 in LightningGroup_append v2 "LTG" RP_RMK md_default) (fun p => let v3 := Some (fst p) in let v4 := snd p in 
    chk 141 (Ok (AppendResult_beq v4 APPENDED)) (
    step 142 (let! v5 := deref v3 in LightningGroup_append v5 "" RP_RMK md_default) (fun p => let v6 := Some (fst p) in let v7 := snd p in 
    chk 142 (Ok (AppendResult_beq v7 NOT_APPENDED)) (
    chk 144 (let! v8 := deref v6 in Ok (LtFreq_beq (lt_freq v8) Lt_FREQUENT)) (
    chk 145 (let! v9 := deref v6 in Ok (DistModifier_beq (distModifier (lt_dist v9)) DM_NONE)) (
    chk 146 (let! v10 := deref v6 in Ok (negb (lt_cloudGround v10))) (
    chk 147 (let! v11 := deref v6 in Ok (negb (lt_inCloud v11))) (
    chk 148 (let! v12 := deref v6 in Ok (negb (lt_cloudCloud v12))) (
    chk 149 (let! v13 := deref v6 in Ok (negb (lt_cloudAir v13))) (
    chk 150 (let! v14 := deref v6 in Ok (negb (lt_unknown v14))) (
    chk 151 (let! v15 := deref v6 in let! v16 := (LightningGroup_directions v15) in Ok (N.eqb (N.of_nat (List.length v16)) 0%N)) (
    chk 152 (let! v17 := deref v6 in Ok (LightningGroup_isValid v17)) (
    None))))))))))))))).

Definition t_LightningGroup_parseConsLtg : option N :=
    step 156 ((LightningGroup_parse "CONS" RP_RMK md_default)) (fun v1 => 
    chk 157 (Ok (has_value v1)) (
    step 159 (let! v2 := deref v1 in LightningGroup_append v2 "LTG" RP_RMK md_default) (fun p => let v3 := Some (fst p) in let v4 := snd p in 
    chk 159 (Ok (AppendResult_beq v4 APPENDED)) (
    step 160 (let! v5 := deref v3 in LightningGroup_append v5 "" RP_RMK md_default) (fun p => let v6 := Some (fst p) in let v7 := snd p in 
    chk 160 (Ok (AppendResult_beq v7 NOT_APPENDED)) (
    chk 162 (let! v8 := deref v6 in Ok (LtFreq_beq (lt_freq v8) Lt_CONSTANT)) (
    chk 163 (let! v9 := deref v6 in Ok (DistModifier_beq (distModifier (lt_dist v9)) DM_NONE)) (
    chk 164 (let! v10 := deref v6 in Ok (negb (lt_cloudGround v10))) (
    chk 165 (let! v11 := deref v6 in Ok (negb (lt_inCloud v11))) (
    chk 166 (let! v12 := deref v6 in Ok (negb (lt_cloudCloud v12))) (
    chk 167 (let! v13 := deref v6 in Ok (negb (lt_cloudAir v13))) (
    chk 168 (let! v14 := deref v6 in Ok (negb (lt_unknown v14))) (
    chk 169 (let! v15 := deref v6 in let! v16 := (LightningGroup_directions v15) in Ok (N.eqb (N.of_nat (List.length v16)) 0%N)) (
    chk 170 (let! v17 := deref v6 in Ok (LightningGroup_isValid v17)) (
    None))))))))))))))).

Definition t_LightningGroup_parseLtgNE : option N :=
    step 180 ((LightningGroup_parse "LTG" RP_RMK md_default)) (fun v1 => 
    chk 181 (Ok (has_value v1)) (
    step 183 (let! v2 := deref v1 in LightningGroup_append v2 "NE" RP_RMK md_default) (fun p => let v3 := Some (fst p) in let v4 := snd p in 
    chk 183 (Ok (AppendResult_beq v4 APPENDED)) (
    step 184 (let! v5 := deref v3 in LightningGroup_append v5 "" RP_RMK md_default) (fun p => let v6 := Some (fst p) in let v7 := snd p in 
    chk 184 (Ok (AppendResult_beq v7 NOT_APPENDED)) (
    chk 186 (let! v8 := deref v6 in Ok (LtFreq_beq (lt_freq v8) Lt_NONE)) (
    chk 187 (let! v9 := deref v6 in Ok (DistModifier_beq (distModifier (lt_dist v9)) DM_NONE)) (
    chk 188 (let! v10 := deref v6 in Ok (negb (lt_cloudGround v10))) (
    chk 189 (let! v11 := deref v6 in Ok (negb (lt_inCloud v11))) (
    chk 190 (let! v12 := deref v6 in Ok (negb (lt_cloudCloud v12))) (
    chk 191 (let! v13 := deref v6 in Ok (negb (lt_cloudAir v13))) (
    chk 192 (let! v14 := deref v6 in Ok (negb (lt_unknown v14))) (
    chk 193 (let! v15 := deref v6 in let! v16 := (LightningGroup_directions v15) in Ok (N.eqb (N.of_nat (List.length v16)) 1%N)) (
    chk 194 (let! v17 := deref v6 in let! v18 := (LightningGroup_directions v17) in let! v19 := deref (List.nth_error v18 0%nat) in Ok (Cardinal_beq (Direction_cardinal v19 false) Cd_NE)) (
    chk 195 (let! v20 := deref v6 in Ok (LightningGroup_isValid v20)) (
    None)))))))))))))))).

Definition t_LightningGroup_parseLtgNES : option N :=
    step 199 ((LightningGroup_parse "LTG" RP_RMK md_default)) (fun v1 => 
    chk 200 (Ok (has_value v1)) (
    step 202 (let! v2 := deref v1 in LightningGroup_append v2 "N-E-S" RP_RMK md_default) (fun p => let v3 := Some (fst p) in let v4 := snd p in 
    chk 202 (Ok (AppendResult_beq v4 APPENDED)) (
    step 203 (let! v5 := deref v3 in LightningGroup_append v5 "" RP_RMK md_default) (fun p => let v6 := Some (fst p) in let v7 := snd p in 
    chk 203 (Ok (AppendResult_beq v7 NOT_APPENDED)) (
    chk 205 (let! v8 := deref v6 in Ok (LtFreq_beq (lt_freq v8) Lt_NONE)) (
    chk 206 (let! v9 := deref v6 in Ok (DistModifier_beq (distModifier (lt_dist v9)) DM_NONE)) (
    chk 207 (let! v10 := deref v6 in Ok (negb (lt_cloudGround v10))) (
    chk 208 (let! v11 := deref v6 in Ok (negb (lt_inCloud v11))) (
    chk 209 (let! v12 := deref v6 in Ok (negb (lt_cloudCloud v12))) (
    chk 210 (let! v13 := deref v6 in Ok (negb (lt_cloudAir v13))) (
    chk 211 (let! v14 := deref v6 in Ok (negb (lt_unknown v14))) (
    chk 212 (let! v15 := deref v6 in let! v16 := (LightningGroup_directions v15) in Ok (N.eqb (N.of_nat (List.length v16)) 5%N)) (
    chk 213 (let! v17 := deref v6 in let! v18 := (LightningGroup_directions v17) in let! v19 := deref (List.nth_error v18 0%nat) in Ok (Cardinal_beq (Direction_cardinal v19 false) Cd_N)) (
    chk 214 (let! v20 := deref v6 in let! v21 := (LightningGroup_directions v20) in let! v22 := deref (List.nth_error v21 1%nat) in Ok (Cardinal_beq (Direction_cardinal v22 false) Cd_NE)) (
    chk 215 (let! v23 := deref v6 in let! v24 := (LightningGroup_directions v23) in let! v25 := deref (List.nth_error v24 2%nat) in Ok (Cardinal_beq (Direction_cardinal v25 false) Cd_E)) (
    chk 216 (let! v26 := deref v6 in let! v27 := (LightningGroup_directions v26) in let! v28 := deref (List.nth_error v27 3%nat) in Ok (Cardinal_beq (Direction_cardinal v28 false) Cd_SE)) (
    chk 217 (let! v29 := deref v6 in let! v30 := (LightningGroup_directions v29) in let! v31 := deref (List.nth_error v30 4%nat) in Ok (Cardinal_beq (Direction_cardinal v31 false) Cd_S)) (
    chk 218 (let! v32 := deref v6 in Ok (LightningGroup_isValid v32)) (
    None)))))))))))))))))))).

Definition t_LightningGroup_parseLtgAlqds : option N :=
    step 222 ((LightningGroup_parse "LTG" RP_RMK md_default)) (fun v1 => 
    chk 223 (Ok (has_value v1)) (
    step 225 (let! v2 := deref v1 in LightningGroup_append v2 "ALQDS" RP_RMK md_default) (fun p => let v3 := Some (fst p) in let v4 := snd p in 
    chk 225 (Ok (AppendResult_beq v4 APPENDED)) (
    step 226 (let! v5 := deref v3 in LightningGroup_append v5 "" RP_RMK md_default) (fun p => let v6 := Some (fst p) in let v7 := snd p in 
    chk 226 (Ok (AppendResult_beq v7 NOT_APPENDED)) (
    chk 228 (let! v8 := deref v6 in Ok (LtFreq_beq (lt_freq v8) Lt_NONE)) (
    chk 229 (let! v9 := deref v6 in Ok (DistModifier_beq (distModifier (lt_dist v9)) DM_NONE)) (
    chk 230 (let! v10 := deref v6 in Ok (negb (lt_cloudGround v10))) (
    chk 231 (let! v11 := deref v6 in Ok (negb (lt_inCloud v11))) (
    chk 232 (let! v12 := deref v6 in Ok (negb (lt_cloudCloud v12))) (
    chk 233 (let! v13 := deref v6 in Ok (negb (lt_cloudAir v13))) (
    chk 234 (let! v14 := deref v6 in Ok (negb (lt_unknown v14))) (
    chk 235 (let! v15 := deref v6 in let! v16 := (LightningGroup_directions v15) in Ok (N.eqb (N.of_nat (List.length v16)) 1%N)) (
    chk 236 (let! v17 := deref v6 in let! v18 := (LightningGroup_directions v17) in let! v19 := deref (List.nth_error v18 0%nat) in Ok (Cardinal_beq (Direction_cardinal v19 false) Cd_ALQDS)) (
    chk 237 (let! v20 := deref v6 in Ok (LightningGroup_isValid v20)) (
    None)))))))))))))))).

Definition t_LightningGroup_parseLtgNESandOHD : option N :=
    step 241 ((LightningGroup_parse "LTG" RP_RMK md_default)) (fun v1 => 
    chk 242 (Ok (has_value v1)) (
    step 244 (let! v2 := deref v1 in LightningGroup_append v2 "N-E-S" RP_RMK md_default) (fun p => let v3 := Some (fst p) in let v4 := snd p in 
    chk 244 (Ok (AppendResult_beq v4 APPENDED)) (
    step 245 (let! v5 := deref v3 in LightningGroup_append v5 "AND" RP_RMK md_default) (fun p => let v6 := Some (fst p) in let v7 := snd p in 
    chk 245 (Ok (AppendResult_beq v7 APPENDED)) (
    step 246 (let! v8 := deref v6 in LightningGroup_append v8 "OHD" RP_RMK md_default) (fun p => let v9 := Some (fst p) in let v10 := snd p in 
    chk 246 (Ok (AppendResult_beq v10 APPENDED)) (
    step 247 (let! v11 := deref v9 in LightningGroup_append v11 "" RP_RMK md_default) (fun p => let v12 := Some (fst p) in let v13 := snd p in 
    chk 247 (Ok (AppendResult_beq v13 NOT_APPENDED)) (
    chk 249 (let! v14 := deref v12 in Ok (LtFreq_beq (lt_freq v14) Lt_NONE)) (
    chk 250 (let! v15 := deref v12 in Ok (DistModifier_beq (distModifier (lt_dist v15)) DM_NONE)) (
    chk 251 (let! v16 := deref v12 in Ok (negb (lt_cloudGround v16))) (
    chk 252 (let! v17 := deref v12 in Ok (negb (lt_inCloud v17))) (
    chk 253 (let! v18 := deref v12 in Ok (negb (lt_cloudCloud v18))) (
    chk 254 (let! v19 := deref v12 in Ok (negb (lt_cloudAir v19))) (
    chk 255 (let! v20 := deref v12 in Ok (negb (lt_unknown v20))) (
    chk 256 (let! v21 := deref v12 in let! v22 := (LightningGroup_directions v21) in Ok (N.eqb (N.of_nat (List.length v22)) 6%N)) (
    chk 257 (let! v23 := deref v12 in let! v24 := (LightningGroup_directions v23) in let! v25 := deref (List.nth_error v24 0%nat) in Ok (Cardinal_beq (Direction_cardinal v25 false) Cd_N)) (
    chk 258 (let! v26 := deref v12 in let! v27 := (LightningGroup_directions v26) in let! v28 := deref (List.nth_error v27 1%nat) in Ok (Cardinal_beq (Direction_cardinal v28 false) Cd_NE)) (
    chk 259 (let! v29 := deref v12 in let! v30 := (LightningGroup_directions v29) in let! v31 := deref (List.nth_error v30 2%nat) in Ok (Cardinal_beq (Direction_cardinal v31 false) Cd_E)) (
    chk 260 (let! v32 := deref v12 in let! v33 := (LightningGroup_directions v32) in let! v34 := deref (List.nth_error v33 3%nat) in Ok (Cardinal_beq (Direction_cardinal v34 false) Cd_SE)) (
    chk 261 (let! v35 := deref v12 in let! v36 := (LightningGroup_directions v35) in let! v37 := deref (List.nth_error v36 4%nat) in Ok (Cardinal_beq (Direction_cardinal v37 false) Cd_S)) (
    chk 262 (let! v38 := deref v12 in let! v39 := (LightningGroup_directions v38) in let! v40 := deref (List.nth_error v39 5%nat) in Ok (Cardinal_beq (Direction_cardinal v40 false) Cd_OHD)) (
    chk 263 (let! v41 := deref v12 in Ok (LightningGroup_isValid v41)) (
    None))))))))))))))))))))))))).

Definition t_LightningGroup_parseLtgSWNWandSES : option N :=
    step 267 ((LightningGroup_parse "LTG" RP_RMK md_default)) (fun v1 => 
    chk 268 (Ok (has_value v1)) (
    step 270 (let! v2 := deref v1 in LightningGroup_append v2 "SW-NW" RP_RMK md_default) (fun p => let v3 := Some (fst p) in let v4 := snd p in 
    chk 270 (Ok (AppendResult_beq v4 APPENDED)) (
    step 271 (let! v5 := deref v3 in LightningGroup_append v5 "AND" RP_RMK md_default) (fun p => let v6 := Some (fst p) in let v7 := snd p in 
    chk 271 (Ok (AppendResult_beq v7 APPENDED)) (
    step 272 (let! v8 := deref v6 in LightningGroup_append v8 "SE-S" RP_RMK md_default) (fun p => let v9 := Some (fst p) in let v10 := snd p in 
    chk 272 (Ok (AppendResult_beq v10 APPENDED)) (
    step 273 (let! v11 := deref v9 in LightningGroup_append v11 "" RP_RMK md_default) (fun p => let v12 := Some (fst p) in let v13 := snd p in 
    chk 273 (Ok (AppendResult_beq v13 NOT_APPENDED)) (
    chk 275 (let! v14 := deref v12 in Ok (LtFreq_beq (lt_freq v14) Lt_NONE)) (
    chk 276 (let! v15 := deref v12 in Ok (DistModifier_beq (distModifier (lt_dist v15)) DM_NONE)) (
    chk 277 (let! v16 := deref v12 in Ok (negb (lt_cloudGround v16))) (
    chk 278 (let! v17 := deref v12 in Ok (negb (lt_inCloud v17))) (
    chk 279 (let! v18 := deref v12 in Ok (negb (lt_cloudCloud v18))) (
    chk 280 (let! v19 := deref v12 in Ok (negb (lt_cloudAir v19))) (
    chk 281 (let! v20 := deref v12 in Ok (negb (lt_unknown v20))) (
    chk 282 (let! v21 := deref v12 in let! v22 := (LightningGroup_directions v21) in Ok (N.eqb (N.of_nat (List.length v22)) 5%N)) (
    chk 283 (let! v23 := deref v12 in let! v24 := (LightningGroup_directions v23) in let! v25 := deref (List.nth_error v24 0%nat) in Ok (Cardinal_beq (Direction_cardinal v25 false) Cd_SW)) (
    chk 284 (let! v26 := deref v12 in let! v27 := (LightningGroup_directions v26) in let! v28 := deref (List.nth_error v27 1%nat) in Ok (Cardinal_beq (Direction_cardinal v28 false) Cd_W)) (
    chk 285 (let! v29 := deref v12 in let! v30 := (LightningGroup_directions v29) in let! v31 := deref (List.nth_error v30 2%nat) in Ok (Cardinal_beq (Direction_cardinal v31 false) Cd_NW)) (
    chk 286 (let! v32 := deref v12 in let! v33 := (LightningGroup_directions v32) in let! v34 := deref (List.nth_error v33 3%nat) in Ok (Cardinal_beq (Direction_cardinal v34 false) Cd_SE)) (
    chk 287 (let! v35 := deref v12 in let! v36 := (LightningGroup_directions v35) in let! v37 := deref (List.nth_error v36 4%nat) in Ok (Cardinal_beq (Direction_cardinal v37 false) Cd_S)) (
    chk 288 (let! v38 := deref v12 in Ok (LightningGroup_isValid v38)) (
    None)))))))))))))))))))))))).

Definition t_LightningGroup_parseLtgSWandE : option N :=
    step 292 ((LightningGroup_parse "LTG" RP_RMK md_default)) (fun v1 => 
    chk 293 (Ok (has_value v1)) (
    step 295 (let! v2 := deref v1 in LightningGroup_append v2 "SW" RP_RMK md_default) (fun p => let v3 := Some (fst p) in let v4 := snd p in 
    chk 295 (Ok (AppendResult_beq v4 APPENDED)) (
    step 296 (let! v5 := deref v3 in LightningGroup_append v5 "AND" RP_RMK md_default) (fun p => let v6 := Some (fst p) in let v7 := snd p in 
    chk 296 (Ok (AppendResult_beq v7 APPENDED)) (
    step 297 (let! v8 := deref v6 in LightningGroup_append v8 "E" RP_RMK md_default) (fun p => let v9 := Some (fst p) in let v10 := snd p in 
    chk 297 (Ok (AppendResult_beq v10 APPENDED)) (
    step 298 (let! v11 := deref v9 in LightningGroup_append v11 "" RP_RMK md_default) (fun p => let v12 := Some (fst p) in let v13 := snd p in 
    chk 298 (Ok (AppendResult_beq v13 NOT_APPENDED)) (
    chk 300 (let! v14 := deref v12 in Ok (LtFreq_beq (lt_freq v14) Lt_NONE)) (
    chk 301 (let! v15 := deref v12 in Ok (DistModifier_beq (distModifier (lt_dist v15)) DM_NONE)) (
    chk 302 (let! v16 := deref v12 in Ok (negb (lt_cloudGround v16))) (
    chk 303 (let! v17 := deref v12 in Ok (negb (lt_inCloud v17))) (
    chk 304 (let! v18 := deref v12 in Ok (negb (lt_cloudCloud v18))) (
    chk 305 (let! v19 := deref v12 in Ok (negb (lt_cloudAir v19))) (
    chk 306 (let! v20 := deref v12 in Ok (negb (lt_unknown v20))) (
    chk 307 (let! v21 := deref v12 in let! v22 := (LightningGroup_directions v21) in Ok (N.eqb (N.of_nat (List.length v22)) 2%N)) (
    chk 308 (let! v23 := deref v12 in let! v24 := (LightningGroup_directions v23) in let! v25 := deref (List.nth_error v24 0%nat) in Ok (Cardinal_beq (Direction_cardinal v25 false) Cd_SW)) (
    chk 309 (let! v26 := deref v12 in let! v27 := (LightningGroup_directions v26) in let! v28 := deref (List.nth_error v27 1%nat) in Ok (Cardinal_beq (Direction_cardinal v28 false) Cd_E)) (
    chk 310 (let! v29 := deref v12 in Ok (LightningGroup_isValid v29)) (
    None))))))))))))))))))))).

Definition t_LightningGroup_parseConsLtgOhdAndAlqds : option N :=
    step 314 ((LightningGroup_parse "CONS" RP_RMK md_default)) (fun v1 => 
    chk 315 (Ok (has_value v1)) (
    step 317 (let! v2 := deref v1 in LightningGroup_append v2 "LTG" RP_RMK md_default) (fun p => let v3 := Some (fst p) in let v4 := snd p in 
    chk 317 (Ok (AppendResult_beq v4 APPENDED)) (
    step 318 (let! v5 := deref v3 in LightningGroup_append v5 "OHD" RP_RMK md_default) (fun p => let v6 := Some (fst p) in let v7 := snd p in 
    chk 318 (Ok (AppendResult_beq v7 APPENDED)) (
    step 319 (let! v8 := deref v6 in LightningGroup_append v8 "AND" RP_RMK md_default) (fun p => let v9 := Some (fst p) in let v10 := snd p in 
    chk 319 (Ok (AppendResult_beq v10 APPENDED)) (
    step 320 (let! v11 := deref v9 in LightningGroup_append v11 "ALQDS" RP_RMK md_default) (fun p => let v12 := Some (fst p) in let v13 := snd p in 
    chk 320 (Ok (AppendResult_beq v13 APPENDED)) (
    step 321 (let! v14 := deref v12 in LightningGroup_append v14 "" RP_RMK md_default) (fun p => let v15 := Some (fst p) in let v16 := snd p in 
    chk 321 (Ok (AppendResult_beq v16 NOT_APPENDED)) (
    chk 323 (let! v17 := deref v15 in Ok (LtFreq_beq (lt_freq v17) Lt_CONSTANT)) (
    chk 324 (let! v18 := deref v15 in Ok (DistModifier_beq (distModifier (lt_dist v18)) DM_NONE)) (
    chk 325 (let! v19 := deref v15 in Ok (negb (lt_cloudGround v19))) (
    chk 326 (let! v20 := deref v15 in Ok (negb (lt_inCloud v20))) (
    chk 327 (let! v21 := deref v15 in Ok (negb (lt_cloudCloud v21))) (
    chk 328 (let! v22 := deref v15 in Ok (negb (lt_cloudAir v22))) (
    chk 329 (let! v23 := deref v15 in Ok (negb (lt_unknown v23))) (
    chk 330 (let! v24 := deref v15 in let! v25 := (LightningGroup_directions v24) in Ok (N.eqb (N.of_nat (List.length v25)) 2%N)) (
    chk 331 (let! v26 := deref v15 in let! v27 := (LightningGroup_directions v26) in let! v28 := deref (List.nth_error v27 0%nat) in Ok (Cardinal_beq (Direction_cardinal v28 false) Cd_OHD)) (
    chk 332 (let! v29 := deref v15 in let! v30 := (LightningGroup_directions v29) in let! v31 := deref (List.nth_error v30 1%nat) in Ok (Cardinal_beq (Direction_cardinal v31 false) Cd_ALQDS)) (
    chk 333 (let! v32 := deref v15 in Ok (LightningGroup_isValid v32)) (
    None))))))))))))))))))))))).

Definition t_LightningGroup_parseLtgIcCcCgOhd : option N :=
    step 337 ((LightningGroup_parse "LTGICCCCG" RP_RMK md_default)) (fun v1 => 
    chk 338 (Ok (has_value v1)) (
    step 340 (let! v2 := deref v1 in LightningGroup_append v2 "OHD" RP_RMK md_default) (fun p => let v3 := Some (fst p) in let v4 := snd p in 
    chk 340 (Ok (AppendResult_beq v4 APPENDED)) (
    step 341 (let! v5 := deref v3 in LightningGroup_append v5 "" RP_RMK md_default) (fun p => let v6 := Some (fst p) in let v7 := snd p in 
    chk 341 (Ok (AppendResult_beq v7 NOT_APPENDED)) (
    chk 343 (let! v8 := deref v6 in Ok (LtFreq_beq (lt_freq v8) Lt_NONE)) (
    chk 344 (let! v9 := deref v6 in Ok (DistModifier_beq (distModifier (lt_dist v9)) DM_NONE)) (
    chk 345 (let! v10 := deref v6 in Ok (lt_cloudGround v10)) (
    chk 346 (let! v11 := deref v6 in Ok (lt_inCloud v11)) (
    chk 347 (let! v12 := deref v6 in Ok (lt_cloudCloud v12)) (
    chk 348 (let! v13 := deref v6 in Ok (negb (lt_cloudAir v13))) (
    chk 349 (let! v14 := deref v6 in Ok (negb (lt_unknown v14))) (
    chk 350 (let! v15 := deref v6 in let! v16 := (LightningGroup_directions v15) in Ok (N.eqb (N.of_nat (List.length v16)) 1%N)) (
    chk 351 (let! v17 := deref v6 in let! v18 := (LightningGroup_directions v17) in let! v19 := deref (List.nth_error v18 0%nat) in Ok (Cardinal_beq (Direction_cardinal v19 false) Cd_OHD)) (
    chk 352 (let! v20 := deref v6 in Ok (LightningGroup_isValid v20)) (
    None)))))))))))))))).

Definition t_LightningGroup_parseLtgCc : option N :=
    step 363 ((LightningGroup_parse "LTGCC" RP_RMK md_default)) (fun v1 => 
    chk 364 (Ok (has_value v1)) (
    step 365 (let! v2 := deref v1 in LightningGroup_append v2 "" RP_RMK md_default) (fun p => let v3 := Some (fst p) in let v4 := snd p in 
    chk 365 (Ok (AppendResult_beq v4 NOT_APPENDED)) (
    chk 367 (let! v5 := deref v3 in Ok (LtFreq_beq (lt_freq v5) Lt_NONE)) (
    chk 368 (let! v6 := deref v3 in Ok (DistModifier_beq (distModifier (lt_dist v6)) DM_NONE)) (
    chk 369 (let! v7 := deref v3 in Ok (negb (lt_cloudGround v7))) (
    chk 370 (let! v8 := deref v3 in Ok (negb (lt_inCloud v8))) (
    chk 371 (let! v9 := deref v3 in Ok (lt_cloudCloud v9)) (
    chk 372 (let! v10 := deref v3 in Ok (negb (lt_cloudAir v10))) (
    chk 373 (let! v11 := deref v3 in Ok (negb (lt_unknown v11))) (
    chk 374 (let! v12 := deref v3 in let! v13 := (LightningGroup_directions v12) in Ok (N.eqb (N.of_nat (List.length v13)) 0%N)) (
    chk 375 (let! v14 := deref v3 in Ok (LightningGroup_isValid v14)) (
    None))))))))))))).

Definition t_LightningGroup_parseLtgCg : option N :=
    step 379 ((LightningGroup_parse "LTGCG" RP_RMK md_default)) (fun v1 => 
    chk 380 (Ok (has_value v1)) (
    step 381 (let! v2 := deref v1 in LightningGroup_append v2 "" RP_RMK md_default) (fun p => let v3 := Some (fst p) in let v4 := snd p in 
    chk 381 (Ok (AppendResult_beq v4 NOT_APPENDED)) (
    chk 383 (let! v5 := deref v3 in Ok (LtFreq_beq (lt_freq v5) Lt_NONE)) (
    chk 384 (let! v6 := deref v3 in Ok (DistModifier_beq (distModifier (lt_dist v6)) DM_NONE)) (
    chk 385 (let! v7 := deref v3 in Ok (lt_cloudGround v7)) (
    chk 386 (let! v8 := deref v3 in Ok (negb (lt_inCloud v8))) (
    chk 387 (let! v9 := deref v3 in Ok (negb (lt_cloudCloud v9))) (
    chk 388 (let! v10 := deref v3 in Ok (negb (lt_cloudAir v10))) (
    chk 389 (let! v11 := deref v3 in Ok (negb (lt_unknown v11))) (
    chk 390 (let! v12 := deref v3 in let! v13 := (LightningGroup_directions v12) in Ok (N.eqb (N.of_nat (List.length v13)) 0%N)) (
    chk 391 (let! v14 := deref v3 in Ok (LightningGroup_isValid v14)) (
    None))))))))))))).

Definition t_LightningGroup_parseLtgIc : option N :=
    step 395 ((LightningGroup_parse "LTGIC" RP_RMK md_default)) (fun v1 => 
    chk 396 (Ok (has_value v1)) (
    step 397 (let! v2 := deref v1 in LightningGroup_append v2 "" RP_RMK md_default) (fun p => let v3 := Some (fst p) in let v4 := snd p in 
    chk 397 (Ok (AppendResult_beq v4 NOT_APPENDED)) (
    chk 399 (let! v5 := deref v3 in Ok (LtFreq_beq (lt_freq v5) Lt_NONE)) (
    chk 400 (let! v6 := deref v3 in Ok (DistModifier_beq (distModifier (lt_dist v6)) DM_NONE)) (
    chk 401 (let! v7 := deref v3 in Ok (negb (lt_cloudGround v7))) (
    chk 402 (let! v8 := deref v3 in Ok (lt_inCloud v8)) (
    chk 403 (let! v9 := deref v3 in Ok (negb (lt_cloudCloud v9))) (
    chk 404 (let! v10 := deref v3 in Ok (negb (lt_cloudAir v10))) (
    chk 405 (let! v11 := deref v3 in Ok (negb (lt_unknown v11))) (
    chk 406 (let! v12 := deref v3 in let! v13 := (LightningGroup_directions v12) in Ok (N.eqb (N.of_nat (List.length v13)) 0%N)) (
    chk 407 (let! v14 := deref v3 in Ok (LightningGroup_isValid v14)) (
    None))))))))))))).

Definition t_LightningGroup_parseLtgCa : option N :=
    step 411 ((LightningGroup_parse "LTGCA" RP_RMK md_default)) (fun v1 => 
    chk 412 (Ok (has_value v1)) (
    step 413 (let! v2 := deref v1 in LightningGroup_append v2 "" RP_RMK md_default) (fun p => let v3 := Some (fst p) in let v4 := snd p in 
    chk 413 (Ok (AppendResult_beq v4 NOT_APPENDED)) (
    chk 415 (let! v5 := deref v3 in Ok (LtFreq_beq (lt_freq v5) Lt_NONE)) (
    chk 416 (let! v6 := deref v3 in Ok (DistModifier_beq (distModifier (lt_dist v6)) DM_NONE)) (
    chk 417 (let! v7 := deref v3 in Ok (negb (lt_cloudGround v7))) (
    chk 418 (let! v8 := deref v3 in Ok (negb (lt_inCloud v8))) (
    chk 419 (let! v9 := deref v3 in Ok (negb (lt_cloudCloud v9))) (
    chk 420 (let! v10 := deref v3 in Ok (lt_cloudAir v10)) (
    chk 421 (let! v11 := deref v3 in Ok (negb (lt_unknown v11))) (
    chk 422 (let! v12 := deref v3 in let! v13 := (LightningGroup_directions v12) in Ok (N.eqb (N.of_nat (List.length v13)) 0%N)) (
    chk 423 (let! v14 := deref v3 in Ok (LightningGroup_isValid v14)) (
    None))))))))))))).

Definition t_LightningGroup_parseLtgCcCaOhd : option N :=
    step 427 ((LightningGroup_parse "LTGCCCA" RP_RMK md_default)) (fun v1 => 
    chk 428 (Ok (has_value v1)) (
    step 430 (let! v2 := deref v1 in LightningGroup_append v2 "OHD" RP_RMK md_default) (fun p => let v3 := Some (fst p) in let v4 := snd p in 
    chk 430 (Ok (AppendResult_beq v4 APPENDED)) (
    step 431 (let! v5 := deref v3 in LightningGroup_append v5 "" RP_RMK md_default) (fun p => let v6 := Some (fst p) in let v7 := snd p in 
    chk 431 (Ok (AppendResult_beq v7 NOT_APPENDED)) (
    chk 433 (let! v8 := deref v6 in Ok (LtFreq_beq (lt_freq v8) Lt_NONE)) (
    chk 434 (let! v9 := deref v6 in Ok (DistModifier_beq (distModifier (lt_dist v9)) DM_NONE)) (
    chk 435 (let! v10 := deref v6 in Ok (negb (lt_cloudGround v10))) (
    chk 436 (let! v11 := deref v6 in Ok (negb (lt_inCloud v11))) (
    chk 437 (let! v12 := deref v6 in Ok (lt_cloudCloud v12)) (
    chk 438 (let! v13 := deref v6 in Ok (lt_cloudAir v13)) (
    chk 439 (let! v14 := deref v6 in Ok (negb (lt_unknown v14))) (
    chk 440 (let! v15 := deref v6 in let! v16 := (LightningGroup_directions v15) in Ok (N.eqb (N.of_nat (List.length v16)) 1%N)) (
    chk 441 (let! v17 := deref v6 in let! v18 := (LightningGroup_directions v17) in let! v19 := deref (List.nth_error v18 0%nat) in Ok (Cardinal_beq (Direction_cardinal v19 false) Cd_OHD)) (
    chk 442 (let! v20 := deref v6 in Ok (LightningGroup_isValid v20)) (
    None)))))))))))))))).

Definition t_LightningGroup_parseLtgCaCcOhd : option N :=
    step 446 ((LightningGroup_parse "LTGCACC" RP_RMK md_default)) (fun v1 => 
    chk 447 (Ok (has_value v1)) (
    step 449 (let! v2 := deref v1 in LightningGroup_append v2 "OHD" RP_RMK md_default) (fun p => let v3 := Some (fst p) in let v4 := snd p in 
    chk 449 (Ok (AppendResult_beq v4 APPENDED)) (
    step 450 (let! v5 := deref v3 in LightningGroup_append v5 "" RP_RMK md_default) (fun p => let v6 := Some (fst p) in let v7 := snd p in 
    chk 450 (Ok (AppendResult_beq v7 NOT_APPENDED)) (
    chk 452 (let! v8 := deref v6 in Ok (LtFreq_beq (lt_freq v8) Lt_NONE)) (
    chk 453 (let! v9 := deref v6 in Ok (DistModifier_beq (distModifier (lt_dist v9)) DM_NONE)) (
    chk 454 (let! v10 := deref v6 in Ok (negb (lt_cloudGround v10))) (
    chk 455 (let! v11 := deref v6 in Ok (negb (lt_inCloud v11))) (
    chk 456 (let! v12 := deref v6 in Ok (lt_cloudCloud v12)) (
    chk 457 (let! v13 := deref v6 in Ok (lt_cloudAir v13)) (
    chk 458 (let! v14 := deref v6 in Ok (negb (lt_unknown v14))) (
    chk 459 (let! v15 := deref v6 in let! v16 := (LightningGroup_directions v15) in Ok (N.eqb (N.of_nat (List.length v16)) 1%N)) (
    chk 460 (let! v17 := deref v6 in let! v18 := (LightningGroup_directions v17) in let! v19 := deref (List.nth_error v18 0%nat) in Ok (Cardinal_beq (Direction_cardinal v19 false) Cd_OHD)) (
    chk 461 (let! v20 := deref v6 in Ok (LightningGroup_isValid v20)) (
    None)))))))))))))))).

Definition t_LightningGroup_parseLtgCb : option N :=
    step 465 ((LightningGroup_parse "LTGCB" RP_RMK md_default)) (fun v1 => 
    chk 466 (Ok (has_value v1)) (
    step 467 (let! v2 := deref v1 in LightningGroup_append v2 "" RP_RMK md_default) (fun p => let v3 := Some (fst p) in let v4 := snd p in 
    chk 467 (Ok (AppendResult_beq v4 NOT_APPENDED)) (
    chk 469 (let! v5 := deref v3 in Ok (LtFreq_beq (lt_freq v5) Lt_NONE)) (
    chk 470 (let! v6 := deref v3 in Ok (DistModifier_beq (distModifier (lt_dist v6)) DM_NONE)) (
    chk 471 (let! v7 := deref v3 in Ok (negb (lt_cloudGround v7))) (
    chk 472 (let! v8 := deref v3 in Ok (negb (lt_inCloud v8))) (
    chk 473 (let! v9 := deref v3 in Ok (negb (lt_cloudCloud v9))) (
    chk 474 (let! v10 := deref v3 in Ok (negb (lt_cloudAir v10))) (
    chk 475 (let! v11 := deref v3 in Ok (lt_unknown v11)) (
    chk 476 (let! v12 := deref v3 in let! v13 := (LightningGroup_directions v12) in Ok (N.eqb (N.of_nat (List.length v13)) 0%N)) (
    chk 477 (let! v14 := deref v3 in Ok (negb (LightningGroup_isValid v14))) (
    None))))))))))))).

Definition t_LightningGroup_parseLtgICC : option N :=
    step 481 ((LightningGroup_parse "LTGICC" RP_RMK md_default)) (fun v1 => 
    chk 482 (Ok (has_value v1)) (
    step 483 (let! v2 := deref v1 in LightningGroup_append v2 "" RP_RMK md_default) (fun p => let v3 := Some (fst p) in let v4 := snd p in 
    chk 483 (Ok (AppendResult_beq v4 NOT_APPENDED)) (
    chk 485 (let! v5 := deref v3 in Ok (LtFreq_beq (lt_freq v5) Lt_NONE)) (
    chk 486 (let! v6 := deref v3 in Ok (DistModifier_beq (distModifier (lt_dist v6)) DM_NONE)) (
    chk 487 (let! v7 := deref v3 in Ok (negb (lt_cloudGround v7))) (
    chk 488 (let! v8 := deref v3 in Ok (lt_inCloud v8)) (
    chk 489 (let! v9 := deref v3 in Ok (negb (lt_cloudCloud v9))) (
    chk 490 (let! v10 := deref v3 in Ok (negb (lt_cloudAir v10))) (
    chk 491 (let! v11 := deref v3 in Ok (lt_unknown v11)) (
    chk 492 (let! v12 := deref v3 in let! v13 := (LightningGroup_directions v12) in Ok (N.eqb (N.of_nat (List.length v13)) 0%N)) (
    chk 493 (let! v14 := deref v3 in Ok (negb (LightningGroup_isValid v14))) (
    None))))))))))))).

Definition t_LightningGroup_parseLtgICICICICICICCC : option N :=
    step 498 ((LightningGroup_parse "LTGICICICICICICCC" RP_RMK md_default)) (fun v1 => 
    chk 499 (Ok (has_value v1)) (
    chk 501 (let! v2 := deref v1 in Ok (LtFreq_beq (lt_freq v2) Lt_NONE)) (
    chk 502 (let! v3 := deref v1 in Ok (DistModifier_beq (distModifier (lt_dist v3)) DM_NONE)) (
    chk 503 (let! v4 := deref v1 in Ok (negb (lt_cloudGround v4))) (
    chk 504 (let! v5 := deref v1 in Ok (lt_inCloud v5)) (
    chk 505 (let! v6 := deref v1 in Ok (negb (lt_cloudCloud v6))) (
    chk 506 (let! v7 := deref v1 in Ok (negb (lt_cloudAir v7))) (
    chk 507 (let! v8 := deref v1 in Ok (negb (lt_unknown v8))) (
    chk 508 (let! v9 := deref v1 in let! v10 := (LightningGroup_directions v9) in Ok (N.eqb (N.of_nat (List.length v10)) 0%N)) (
    None)))))))))).

Example tests_lightninggroup_pass : failures
  [("LightningGroup_parseLtg", t_LightningGroup_parseLtg);
   ("LightningGroup_parseLtgDsnt", t_LightningGroup_parseLtgDsnt);
   ("LightningGroup_parseLtgDsntAlqds", t_LightningGroup_parseLtgDsntAlqds);
   ("LightningGroup_parseLtgVc", t_LightningGroup_parseLtgVc);
   ("LightningGroup_parseLtgVcAlqds", t_LightningGroup_parseLtgVcAlqds);
   ("LightningGroup_parseOcnlLtg", t_LightningGroup_parseOcnlLtg);
   ("LightningGroup_parseFrqLtg", t_LightningGroup_parseFrqLtg);
   ("LightningGroup_parseConsLtg", t_LightningGroup_parseConsLtg);
   ("LightningGroup_parseLtgNE", t_LightningGroup_parseLtgNE);
   ("LightningGroup_parseLtgNES", t_LightningGroup_parseLtgNES);
   ("LightningGroup_parseLtgAlqds", t_LightningGroup_parseLtgAlqds);
   ("LightningGroup_parseLtgNESandOHD", t_LightningGroup_parseLtgNESandOHD);
   ("LightningGroup_parseLtgSWNWandSES", t_LightningGroup_parseLtgSWNWandSES);
   ("LightningGroup_parseLtgSWandE", t_LightningGroup_parseLtgSWandE);
   ("LightningGroup_parseConsLtgOhdAndAlqds", t_LightningGroup_parseConsLtgOhdAndAlqds);
   ("LightningGroup_parseLtgIcCcCgOhd", t_LightningGroup_parseLtgIcCcCgOhd);
   ("LightningGroup_parseLtgCc", t_LightningGroup_parseLtgCc);
   ("LightningGroup_parseLtgCg", t_LightningGroup_parseLtgCg);
   ("LightningGroup_parseLtgIc", t_LightningGroup_parseLtgIc);
   ("LightningGroup_parseLtgCa", t_LightningGroup_parseLtgCa);
   ("LightningGroup_parseLtgCcCaOhd", t_LightningGroup_parseLtgCcCaOhd);
   ("LightningGroup_parseLtgCaCcOhd", t_LightningGroup_parseLtgCaCcOhd);
   ("LightningGroup_parseLtgCb", t_LightningGroup_parseLtgCb);
   ("LightningGroup_parseLtgICC", t_LightningGroup_parseLtgICC);
   ("LightningGroup_parseLtgICICICICICICCC", t_LightningGroup_parseLtgICICICICICICCC)] = [].
Proof. vm_compute. reflexivity. Qed.
