(** Generated by tools/gen_tests.py from /repo/test/test_lowmidhighcloudgroup.cpp: the project's own unit tests, run
    against the model. These are tests of the model's fidelity, not properties. *)

From Verif Require Import Prim Regex Float Values Weather Groups1 Groups2 Groups3 Groups4 Parser TestLib.
Local Open Scope string_scope.
Local Open Scope bool_scope.

Definition t_LowMidHighCloudGroup_parseLowLayer0 : option N :=
    step 17 ((LowMidHighCloudGroup_parse "8/000" RP_RMK md_default)) (fun v1 => 
    chk 18 (Ok (has_value v1)) (
    chk 19 (let! v2 := deref v1 in Ok (LowLayer_beq (lmh_low v2) Lo_NONE)) (
    None))).

Definition t_LowMidHighCloudGroup_parseLowLayer1 : option N :=
    step 23 ((LowMidHighCloudGroup_parse "8/100" RP_RMK md_default)) (fun v1 => 
    chk 24 (Ok (has_value v1)) (
    chk 25 (let! v2 := deref v1 in Ok (LowLayer_beq (lmh_low v2) Lo_CU_HU_CU_FR)) (
    None))).

Definition t_LowMidHighCloudGroup_parseLowLayer2 : option N :=
    step 29 ((LowMidHighCloudGroup_parse "8/200" RP_RMK md_default)) (fun v1 => 
    chk 30 (Ok (has_value v1)) (
    chk 31 (let! v2 := deref v1 in Ok (LowLayer_beq (lmh_low v2) Lo_CU_MED_CU_CON)) (
    None))).

Definition t_LowMidHighCloudGroup_parseLowLayer3 : option N :=
    step 35 ((LowMidHighCloudGroup_parse "8/300" RP_RMK md_default)) (fun v1 => 
    chk 36 (Ok (has_value v1)) (
    chk 37 (let! v2 := deref v1 in Ok (LowLayer_beq (lmh_low v2) Lo_CB_CAL)) (
    None))).

Definition t_LowMidHighCloudGroup_parseLowLayer4 : option N :=
    step 41 ((LowMidHighCloudGroup_parse "8/400" RP_RMK md_default)) (fun v1 => 
    chk 42 (Ok (has_value v1)) (
    chk 43 (let! v2 := deref v1 in Ok (LowLayer_beq (lmh_low v2) Lo_SC_CUGEN)) (
    None))).

Definition t_LowMidHighCloudGroup_parseLowLayer5 : option N :=
    step 47 ((LowMidHighCloudGroup_parse "8/500" RP_RMK md_default)) (fun v1 => 
    chk 48 (Ok (has_value v1)) (
    chk 49 (let! v2 := deref v1 in Ok (LowLayer_beq (lmh_low v2) Lo_SC_NON_CUGEN)) (
    None))).

Definition t_LowMidHighCloudGroup_parseLowLayer6 : option N :=
    step 53 ((LowMidHighCloudGroup_parse "8/600" RP_RMK md_default)) (fun v1 => 
    chk 54 (Ok (has_value v1)) (
    chk 55 (let! v2 := deref v1 in Ok (LowLayer_beq (lmh_low v2) Lo_ST_NEB_ST_FR)) (
    None))).

Definition t_LowMidHighCloudGroup_parseLowLayer7 : option N :=
    step 59 ((LowMidHighCloudGroup_parse "8/700" RP_RMK md_default)) (fun v1 => 
    chk 60 (Ok (has_value v1)) (
    chk 61 (let! v2 := deref v1 in Ok (LowLayer_beq (lmh_low v2) Lo_ST_FR_CU_FR_PANNUS)) (
    None))).

Definition t_LowMidHighCloudGroup_parseLowLayer8 : option N :=
    step 65 ((LowMidHighCloudGroup_parse "8/800" RP_RMK md_default)) (fun v1 => 
    chk 66 (Ok (has_value v1)) (
    chk 67 (let! v2 := deref v1 in Ok (LowLayer_beq (lmh_low v2) Lo_CU_SC_NON_CUGEN_DIFFERENT_LEVELS)) (
    None))).

Definition t_LowMidHighCloudGroup_parseLowLayer9 : option N :=
    step 71 ((LowMidHighCloudGroup_parse "8/900" RP_RMK md_default)) (fun v1 => 
    chk 72 (Ok (has_value v1)) (
    chk 73 (let! v2 := deref v1 in Ok (LowLayer_beq (lmh_low v2) Lo_CB_CAP)) (
    None))).

Definition t_LowMidHighCloudGroup_parseLowLayerNo : option N :=
    step 77 ((LowMidHighCloudGroup_parse "8//00" RP_RMK md_default)) (fun v1 => 
    chk 78 (Ok (has_value v1)) (
    chk 79 (let! v2 := deref v1 in Ok (LowLayer_beq (lmh_low v2) Lo_NOT_OBSERVABLE)) (
    None))).

Definition t_LowMidHighCloudGroup_parseMidLayer0 : option N :=
    step 88 ((LowMidHighCloudGroup_parse "8/000" RP_RMK md_default)) (fun v1 => 
    chk 89 (Ok (has_value v1)) (
    chk 90 (let! v2 := deref v1 in Ok (MidLayer_beq (lmh_mid v2) Mi_NONE)) (
    None))).

Definition t_LowMidHighCloudGroup_parseMidLayer1 : option N :=
    step 94 ((LowMidHighCloudGroup_parse "8/010" RP_RMK md_default)) (fun v1 => 
    chk 95 (Ok (has_value v1)) (
    chk 96 (let! v2 := deref v1 in Ok (MidLayer_beq (lmh_mid v2) Mi_AS_TR)) (
    None))).

Definition t_LowMidHighCloudGroup_parseMidLayer2 : option N :=
    step 100 ((LowMidHighCloudGroup_parse "8/020" RP_RMK md_default)) (fun v1 => 
    chk 101 (Ok (has_value v1)) (
    chk 102 (let! v2 := deref v1 in Ok (MidLayer_beq (lmh_mid v2) Mi_AS_OP_NS)) (
    None))).

Definition t_LowMidHighCloudGroup_parseMidLayer3 : option N :=
    step 106 ((LowMidHighCloudGroup_parse "8/030" RP_RMK md_default)) (fun v1 => 
    chk 107 (Ok (has_value v1)) (
    chk 108 (let! v2 := deref v1 in Ok (MidLayer_beq (lmh_mid v2) Mi_AC_TR)) (
    None))).

Definition t_LowMidHighCloudGroup_parseMidLayer4 : option N :=
    step 112 ((LowMidHighCloudGroup_parse "8/040" RP_RMK md_default)) (fun v1 => 
    chk 113 (Ok (has_value v1)) (
    chk 114 (let! v2 := deref v1 in Ok (MidLayer_beq (lmh_mid v2) Mi_AC_TR_LEN_PATCHES)) (
    None))).

Definition t_LowMidHighCloudGroup_parseMidLayer5 : option N :=
    step 118 ((LowMidHighCloudGroup_parse "8/050" RP_RMK md_default)) (fun v1 => 
    chk 119 (Ok (has_value v1)) (
    chk 120 (let! v2 := deref v1 in Ok (MidLayer_beq (lmh_mid v2) Mi_AC_TR_AC_OP_SPREADING)) (
    None))).

Definition t_LowMidHighCloudGroup_parseMidLayer6 : option N :=
    step 124 ((LowMidHighCloudGroup_parse "8/060" RP_RMK md_default)) (fun v1 => 
    chk 125 (Ok (has_value v1)) (
    chk 126 (let! v2 := deref v1 in Ok (MidLayer_beq (lmh_mid v2) Mi_AC_CUGEN_AC_CBGEN)) (
    None))).

Definition t_LowMidHighCloudGroup_parseMidLayer7 : option N :=
    step 130 ((LowMidHighCloudGroup_parse "8/070" RP_RMK md_default)) (fun v1 => 
    chk 131 (Ok (has_value v1)) (
    chk 132 (let! v2 := deref v1 in Ok (MidLayer_beq (lmh_mid v2) Mi_AC_DU_AC_OP_AC_WITH_AS_OR_NS)) (
    None))).

Definition t_LowMidHighCloudGroup_parseMidLayer8 : option N :=
    step 136 ((LowMidHighCloudGroup_parse "8/080" RP_RMK md_default)) (fun v1 => 
    chk 137 (Ok (has_value v1)) (
    chk 138 (let! v2 := deref v1 in Ok (MidLayer_beq (lmh_mid v2) Mi_AC_CAS_AC_FLO)) (
    None))).

Definition t_LowMidHighCloudGroup_parseMidLayer9 : option N :=
    step 142 ((LowMidHighCloudGroup_parse "8/090" RP_RMK md_default)) (fun v1 => 
    chk 143 (Ok (has_value v1)) (
    chk 144 (let! v2 := deref v1 in Ok (MidLayer_beq (lmh_mid v2) Mi_AC_OF_CHAOTIC_SKY)) (
    None))).

Definition t_LowMidHighCloudGroup_parseMidLayerNo : option N :=
    step 148 ((LowMidHighCloudGroup_parse "8/0/0" RP_RMK md_default)) (fun v1 => 
    chk 149 (Ok (has_value v1)) (
    chk 150 (let! v2 := deref v1 in Ok (MidLayer_beq (lmh_mid v2) Mi_NOT_OBSERVABLE)) (
    None))).

Definition t_LowMidHighCloudGroup_parseHighLayer0 : option N :=
    step 159 ((LowMidHighCloudGroup_parse "8/000" RP_RMK md_default)) (fun v1 => 
    chk 160 (Ok (has_value v1)) (
    chk 161 (let! v2 := deref v1 in Ok (HighLayer_beq (lmh_high v2) Hi_NONE)) (
    None))).

Definition t_LowMidHighCloudGroup_parseHighLayer1 : option N :=
    step 165 ((LowMidHighCloudGroup_parse "8/001" RP_RMK md_default)) (fun v1 => 
    chk 166 (Ok (has_value v1)) (
    chk 167 (let! v2 := deref v1 in Ok (HighLayer_beq (lmh_high v2) Hi_CI_FIB_CI_UNC)) (
    None))).

Definition t_LowMidHighCloudGroup_parseHighLayer2 : option N :=
    step 171 ((LowMidHighCloudGroup_parse "8/002" RP_RMK md_default)) (fun v1 => 
    chk 172 (Ok (has_value v1)) (
    chk 173 (let! v2 := deref v1 in Ok (HighLayer_beq (lmh_high v2) Hi_CI_SPI_CI_CAS_CI_FLO)) (
    None))).

Definition t_LowMidHighCloudGroup_parseHighLayer3 : option N :=
    step 177 ((LowMidHighCloudGroup_parse "8/003" RP_RMK md_default)) (fun v1 => 
    chk 178 (Ok (has_value v1)) (
    chk 179 (let! v2 := deref v1 in Ok (HighLayer_beq (lmh_high v2) Hi_CI_SPI_CBGEN)) (
    None))).

Definition t_LowMidHighCloudGroup_parseHighLayer4 : option N :=
    step 183 ((LowMidHighCloudGroup_parse "8/004" RP_RMK md_default)) (fun v1 => 
    chk 184 (Ok (has_value v1)) (
    chk 185 (let! v2 := deref v1 in Ok (HighLayer_beq (lmh_high v2) Hi_CI_FIB_CI_UNC_SPREADING)) (
    None))).

Definition t_LowMidHighCloudGroup_parseHighLayer5 : option N :=
    step 189 ((LowMidHighCloudGroup_parse "8/005" RP_RMK md_default)) (fun v1 => 
    chk 190 (Ok (has_value v1)) (
    chk 191 (let! v2 := deref v1 in Ok (HighLayer_beq (lmh_high v2) Hi_CI_CS_LOW_ABOVE_HORIZON)) (
    None))).

Definition t_LowMidHighCloudGroup_parseHighLayer6 : option N :=
    step 195 ((LowMidHighCloudGroup_parse "8/006" RP_RMK md_default)) (fun v1 => 
    chk 196 (Ok (has_value v1)) (
    chk 197 (let! v2 := deref v1 in Ok (HighLayer_beq (lmh_high v2) Hi_CI_CS_HIGH_ABOVE_HORIZON)) (
    None))).

Definition t_LowMidHighCloudGroup_parseHighLayer7 : option N :=
    step 201 ((LowMidHighCloudGroup_parse "8/007" RP_RMK md_default)) (fun v1 => 
    chk 202 (Ok (has_value v1)) (
    chk 203 (let! v2 := deref v1 in Ok (HighLayer_beq (lmh_high v2) Hi_CS_NEB_CS_FIB_COVERING_ENTIRE_SKY)) (
    None))).

Definition t_LowMidHighCloudGroup_parseHighLayer8 : option N :=
    step 207 ((LowMidHighCloudGroup_parse "8/008" RP_RMK md_default)) (fun v1 => 
    chk 208 (Ok (has_value v1)) (
    chk 209 (let! v2 := deref v1 in Ok (HighLayer_beq (lmh_high v2) Hi_CS)) (
    None))).

Definition t_LowMidHighCloudGroup_parseHighLayer9 : option N :=
    step 213 ((LowMidHighCloudGroup_parse "8/009" RP_RMK md_default)) (fun v1 => 
    chk 214 (Ok (has_value v1)) (
    chk 215 (let! v2 := deref v1 in Ok (HighLayer_beq (lmh_high v2) Hi_CC)) (
    None))).

Definition t_LowMidHighCloudGroup_parseHighLayerNo : option N :=
    step 219 ((LowMidHighCloudGroup_parse "8/00/" RP_RMK md_default)) (fun v1 => 
    chk 220 (Ok (has_value v1)) (
    chk 221 (let! v2 := deref v1 in Ok (HighLayer_beq (lmh_high v2) Hi_NOT_OBSERVABLE)) (
    None))).

Definition t_LowMidHighCloudGroup_parseWrongReportPart : option N :=
    chk 230 (let! v1 := (LowMidHighCloudGroup_parse "8/000" RP_UNKNOWN md_default) in Ok (negb (has_value v1))) (
    chk 231 (let! v2 := (LowMidHighCloudGroup_parse "8/000" RP_HEADER md_default) in Ok (negb (has_value v2))) (
    chk 232 (let! v3 := (LowMidHighCloudGroup_parse "8/000" RP_METAR md_default) in Ok (negb (has_value v3))) (
    chk 233 (let! v4 := (LowMidHighCloudGroup_parse "8/000" RP_TAF md_default) in Ok (negb (has_value v4))) (
    None)))).

Definition t_LowMidHighCloudGroup_parseWrongFormat : option N :=
    chk 237 (let! v1 := (LowMidHighCloudGroup_parse "8000" RP_RMK md_default) in Ok (negb (has_value v1))) (
    chk 238 (let! v2 := (LowMidHighCloudGroup_parse "8/0000" RP_RMK md_default) in Ok (negb (has_value v2))) (
    chk 239 (let! v3 := (LowMidHighCloudGroup_parse "8/00" RP_RMK md_default) in Ok (negb (has_value v3))) (
    chk 240 (let! v4 := (LowMidHighCloudGroup_parse "8/A00" RP_RMK md_default) in Ok (negb (has_value v4))) (
    chk 241 (let! v5 := (LowMidHighCloudGroup_parse "8/0A0" RP_RMK md_default) in Ok (negb (has_value v5))) (
    chk 242 (let! v6 := (LowMidHighCloudGroup_parse "8/00A" RP_RMK md_default) in Ok (negb (has_value v6))) (
    chk 243 (let! v7 := (LowMidHighCloudGroup_parse "8/" RP_RMK md_default) in Ok (negb (has_value v7))) (
    None))))))).

Definition t_LowMidHighCloudGroup_isValidTrue : option N :=
    step 252 ((LowMidHighCloudGroup_parse "8/578" RP_RMK md_default)) (fun v1 => 
    chk 253 (Ok (has_value v1)) (
    chk 254 (let! v2 := deref v1 in Ok (LowMidHighCloudGroup_isValid v2)) (
    step 256 ((LowMidHighCloudGroup_parse "8/52/" RP_RMK md_default)) (fun v3 => 
    chk 257 (Ok (has_value v3)) (
    chk 258 (let! v4 := deref v3 in Ok (LowMidHighCloudGroup_isValid v4)) (
    step 260 ((LowMidHighCloudGroup_parse "8/4//" RP_RMK md_default)) (fun v5 => 
    chk 261 (Ok (has_value v5)) (
    chk 262 (let! v6 := deref v5 in Ok (LowMidHighCloudGroup_isValid v6)) (
    step 264 ((LowMidHighCloudGroup_parse "8////" RP_RMK md_default)) (fun v7 => 
    chk 265 (Ok (has_value v7)) (
    chk 266 (let! v8 := deref v7 in Ok (LowMidHighCloudGroup_isValid v8)) (
    None)))))))))))).

Definition t_LowMidHighCloudGroup_isValidFalse : option N :=
    step 270 ((LowMidHighCloudGroup_parse "8//00" RP_RMK md_default)) (fun v1 => 
    chk 271 (Ok (has_value v1)) (
    chk 272 (let! v2 := deref v1 in Ok (negb (LowMidHighCloudGroup_isValid v2))) (
    step 274 ((LowMidHighCloudGroup_parse "8/0/0" RP_RMK md_default)) (fun v3 => 
    chk 275 (Ok (has_value v3)) (
    chk 276 (let! v4 := deref v3 in Ok (negb (LowMidHighCloudGroup_isValid v4))) (
    step 278 ((LowMidHighCloudGroup_parse "8///0" RP_RMK md_default)) (fun v5 => 
    chk 279 (Ok (has_value v5)) (
    chk 280 (let! v6 := deref v5 in Ok (negb (LowMidHighCloudGroup_isValid v6))) (
    None))))))))).

Definition t_LowMidHighCloudGroup_append : option N :=
    step 289 ((LowMidHighCloudGroup_parse "8/578" RP_RMK md_default)) (fun v1 => 
    chk 290 (Ok (has_value v1)) (
    step 292 ((LowMidHighCloudGroup_parse "8/52/" RP_RMK md_default)) (fun v2 => 
    chk 293 (Ok (has_value v2)) (
    step 295 (let! v3 := deref v1 in LowMidHighCloudGroup_append v3 "RMK" RP_RMK md_default) (fun p => let v4 := Some (fst p) in let v5 := snd p in 
    chk 295 (Ok (AppendResult_beq v5 NOT_APPENDED)) (
    step 297 (let! v6 := deref v4 in LowMidHighCloudGroup_append v6 "8/578" RP_RMK md_default) (fun p => let v7 := Some (fst p) in let v8 := snd p in 
    chk 297 (Ok (AppendResult_beq v8 NOT_APPENDED)) (
    step 299 (let! v9 := deref v7 in LowMidHighCloudGroup_append v9 "8/52/" RP_RMK md_default) (fun p => let v10 := Some (fst p) in let v11 := snd p in 
    chk 299 (Ok (AppendResult_beq v11 NOT_APPENDED)) (
    step 301 (let! v12 := deref v10 in LowMidHighCloudGroup_append v12 "TEST" RP_RMK md_default) (fun p => let v13 := Some (fst p) in let v14 := snd p in 
    chk 301 (Ok (AppendResult_beq v14 NOT_APPENDED)) (
    step 304 (let! v15 := deref v13 in LowMidHighCloudGroup_append v15 "RMK" RP_RMK md_default) (fun p => let v16 := Some (fst p) in let v17 := snd p in 
    chk 304 (Ok (AppendResult_beq v17 NOT_APPENDED)) (
    step 306 (let! v18 := deref v16 in LowMidHighCloudGroup_append v18 "8/578" RP_RMK md_default) (fun p => let v19 := Some (fst p) in let v20 := snd p in 
    chk 306 (Ok (AppendResult_beq v20 NOT_APPENDED)) (
    step 308 (let! v21 := deref v19 in LowMidHighCloudGroup_append v21 "8/52/" RP_RMK md_default) (fun p => let v22 := Some (fst p) in let v23 := snd p in 
    chk 308 (Ok (AppendResult_beq v23 NOT_APPENDED)) (
    step 310 (let! v24 := deref v22 in LowMidHighCloudGroup_append v24 "TEST" RP_RMK md_default) (fun p => let v25 := Some (fst p) in let v26 := snd p in 
    chk 310 (Ok (AppendResult_beq v26 NOT_APPENDED)) (
    None)))))))))))))))))))).

Example tests_lowmidhighcloudgroup_pass : failures
  [("LowMidHighCloudGroup_parseLowLayer0", t_LowMidHighCloudGroup_parseLowLayer0);
   ("LowMidHighCloudGroup_parseLowLayer1", t_LowMidHighCloudGroup_parseLowLayer1);
   ("LowMidHighCloudGroup_parseLowLayer2", t_LowMidHighCloudGroup_parseLowLayer2);
   ("LowMidHighCloudGroup_parseLowLayer3", t_LowMidHighCloudGroup_parseLowLayer3);
   ("LowMidHighCloudGroup_parseLowLayer4", t_LowMidHighCloudGroup_parseLowLayer4);
   ("LowMidHighCloudGroup_parseLowLayer5", t_LowMidHighCloudGroup_parseLowLayer5);
   ("LowMidHighCloudGroup_parseLowLayer6", t_LowMidHighCloudGroup_parseLowLayer6);
   ("LowMidHighCloudGroup_parseLowLayer7", t_LowMidHighCloudGroup_parseLowLayer7);
   ("LowMidHighCloudGroup_parseLowLayer8", t_LowMidHighCloudGroup_parseLowLayer8);
   ("LowMidHighCloudGroup_parseLowLayer9", t_LowMidHighCloudGroup_parseLowLayer9);
   ("LowMidHighCloudGroup_parseLowLayerNo", t_LowMidHighCloudGroup_parseLowLayerNo);
   ("LowMidHighCloudGroup_parseMidLayer0", t_LowMidHighCloudGroup_parseMidLayer0);
   ("LowMidHighCloudGroup_parseMidLayer1", t_LowMidHighCloudGroup_parseMidLayer1);
   ("LowMidHighCloudGroup_parseMidLayer2", t_LowMidHighCloudGroup_parseMidLayer2);
   ("LowMidHighCloudGroup_parseMidLayer3", t_LowMidHighCloudGroup_parseMidLayer3);
   ("LowMidHighCloudGroup_parseMidLayer4", t_LowMidHighCloudGroup_parseMidLayer4);
   ("LowMidHighCloudGroup_parseMidLayer5", t_LowMidHighCloudGroup_parseMidLayer5);
   ("LowMidHighCloudGroup_parseMidLayer6", t_LowMidHighCloudGroup_parseMidLayer6);
   ("LowMidHighCloudGroup_parseMidLayer7", t_LowMidHighCloudGroup_parseMidLayer7);
   ("LowMidHighCloudGroup_parseMidLayer8", t_LowMidHighCloudGroup_parseMidLayer8);
   ("LowMidHighCloudGroup_parseMidLayer9", t_LowMidHighCloudGroup_parseMidLayer9);
   ("LowMidHighCloudGroup_parseMidLayerNo", t_LowMidHighCloudGroup_parseMidLayerNo);
   ("LowMidHighCloudGroup_parseHighLayer0", t_LowMidHighCloudGroup_parseHighLayer0);
   ("LowMidHighCloudGroup_parseHighLayer1", t_LowMidHighCloudGroup_parseHighLayer1);
   ("LowMidHighCloudGroup_parseHighLayer2", t_LowMidHighCloudGroup_parseHighLayer2);
   ("LowMidHighCloudGroup_parseHighLayer3", t_LowMidHighCloudGroup_parseHighLayer3);
   ("LowMidHighCloudGroup_parseHighLayer4", t_LowMidHighCloudGroup_parseHighLayer4);
   ("LowMidHighCloudGroup_parseHighLayer5", t_LowMidHighCloudGroup_parseHighLayer5);
   ("LowMidHighCloudGroup_parseHighLayer6", t_LowMidHighCloudGroup_parseHighLayer6);
   ("LowMidHighCloudGroup_parseHighLayer7", t_LowMidHighCloudGroup_parseHighLayer7);
   ("LowMidHighCloudGroup_parseHighLayer8", t_LowMidHighCloudGroup_parseHighLayer8);
   ("LowMidHighCloudGroup_parseHighLayer9", t_LowMidHighCloudGroup_parseHighLayer9);
   ("LowMidHighCloudGroup_parseHighLayerNo", t_LowMidHighCloudGroup_parseHighLayerNo);
   ("LowMidHighCloudGroup_parseWrongReportPart", t_LowMidHighCloudGroup_parseWrongReportPart);
   ("LowMidHighCloudGroup_parseWrongFormat", t_LowMidHighCloudGroup_parseWrongFormat);
   ("LowMidHighCloudGroup_isValidTrue", t_LowMidHighCloudGroup_isValidTrue);
   ("LowMidHighCloudGroup_isValidFalse", t_LowMidHighCloudGroup_isValidFalse);
   ("LowMidHighCloudGroup_append", t_LowMidHighCloudGroup_append)] = [].
Proof. vm_compute. reflexivity. Qed.
