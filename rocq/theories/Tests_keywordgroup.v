(** Generated by tools/gen_tests.py from /repo/test/test_keywordgroup.cpp: the project's own unit tests, run
    against the model. These are tests of the model's fidelity, not properties. *)

From Verif Require Import Prim Regex Float Values Weather Groups1 Groups2 Groups3 Groups4 Parser TestLib.
Local Open Scope string_scope.
Local Open Scope bool_scope.

Definition t_KeywordGroup_parseMetar : option N :=
    step 19 ((KeywordGroup_parse "METAR" RP_HEADER md_default)) (fun v1 => 
    chk 20 (Ok (has_value v1)) (
    chk 21 (let! v2 := deref v1 in Ok (KwType_beq (kw_t v2) Kw_METAR)) (
    chk 23 (let! v3 := (KeywordGroup_parse "METAR" RP_UNKNOWN md_default) in Ok (negb (has_value v3))) (
    chk 24 (let! v4 := (KeywordGroup_parse "METAR" RP_METAR md_default) in Ok (negb (has_value v4))) (
    chk 25 (let! v5 := (KeywordGroup_parse "METAR" RP_TAF md_default) in Ok (negb (has_value v5))) (
    chk 26 (let! v6 := (KeywordGroup_parse "METAR" RP_RMK md_default) in Ok (negb (has_value v6))) (
    None))))))).

Definition t_KeywordGroup_parseSpeci : option N :=
    step 32 ((KeywordGroup_parse "SPECI" RP_HEADER md_default)) (fun v1 => 
    chk 33 (Ok (has_value v1)) (
    chk 34 (let! v2 := deref v1 in Ok (KwType_beq (kw_t v2) Kw_SPECI)) (
    chk 36 (let! v3 := (KeywordGroup_parse "SPECI" RP_UNKNOWN md_default) in Ok (negb (has_value v3))) (
    chk 37 (let! v4 := (KeywordGroup_parse "SPECI" RP_METAR md_default) in Ok (negb (has_value v4))) (
    chk 38 (let! v5 := (KeywordGroup_parse "SPECI" RP_TAF md_default) in Ok (negb (has_value v5))) (
    chk 39 (let! v6 := (KeywordGroup_parse "SPECI" RP_RMK md_default) in Ok (negb (has_value v6))) (
    None))))))).

Definition t_KeywordGroup_parseTaf : option N :=
    step 45 ((KeywordGroup_parse "TAF" RP_HEADER md_default)) (fun v1 => 
    chk 46 (Ok (has_value v1)) (
    chk 47 (let! v2 := deref v1 in Ok (KwType_beq (kw_t v2) Kw_TAF)) (
    chk 49 (let! v3 := (KeywordGroup_parse "TAF" RP_UNKNOWN md_default) in Ok (negb (has_value v3))) (
    chk 50 (let! v4 := (KeywordGroup_parse "TAF" RP_METAR md_default) in Ok (negb (has_value v4))) (
    chk 51 (let! v5 := (KeywordGroup_parse "TAF" RP_TAF md_default) in Ok (negb (has_value v5))) (
    chk 52 (let! v6 := (KeywordGroup_parse "TAF" RP_RMK md_default) in Ok (negb (has_value v6))) (
    None))))))).

Definition t_KeywordGroup_parseAmd : option N :=
    step 57 ((KeywordGroup_parse "AMD" RP_HEADER md_default)) (fun v1 => 
    chk 58 (Ok (has_value v1)) (
    chk 59 (let! v2 := deref v1 in Ok (KwType_beq (kw_t v2) Kw_AMD)) (
    chk 61 (let! v3 := (KeywordGroup_parse "AMD" RP_UNKNOWN md_default) in Ok (negb (has_value v3))) (
    chk 62 (let! v4 := (KeywordGroup_parse "AMD" RP_METAR md_default) in Ok (negb (has_value v4))) (
    chk 63 (let! v5 := (KeywordGroup_parse "AMD" RP_TAF md_default) in Ok (negb (has_value v5))) (
    chk 64 (let! v6 := (KeywordGroup_parse "AMD" RP_RMK md_default) in Ok (negb (has_value v6))) (
    None))))))).

Definition t_KeywordGroup_parseNil : option N :=
    step 71 ((KeywordGroup_parse "NIL" RP_HEADER md_default)) (fun v1 => 
    chk 72 (Ok (has_value v1)) (
    chk 73 (let! v2 := deref v1 in Ok (KwType_beq (kw_t v2) Kw_NIL)) (
    step 75 ((KeywordGroup_parse "NIL" RP_METAR md_default)) (fun v3 => 
    chk 76 (Ok (has_value v3)) (
    chk 77 (let! v4 := deref v3 in Ok (KwType_beq (kw_t v4) Kw_NIL)) (
    step 79 ((KeywordGroup_parse "NIL" RP_TAF md_default)) (fun v5 => 
    chk 80 (Ok (has_value v5)) (
    chk 81 (let! v6 := deref v5 in Ok (KwType_beq (kw_t v6) Kw_NIL)) (
    chk 83 (let! v7 := (KeywordGroup_parse "NIL" RP_UNKNOWN md_default) in Ok (negb (has_value v7))) (
    chk 84 (let! v8 := (KeywordGroup_parse "NIL" RP_RMK md_default) in Ok (negb (has_value v8))) (
    None))))))))))).

Definition t_KeywordGroup_parseCnl : option N :=
    step 91 ((KeywordGroup_parse "CNL" RP_HEADER md_default)) (fun v1 => 
    chk 92 (Ok (has_value v1)) (
    chk 93 (let! v2 := deref v1 in Ok (KwType_beq (kw_t v2) Kw_CNL)) (
    step 95 ((KeywordGroup_parse "CNL" RP_METAR md_default)) (fun v3 => 
    chk 96 (Ok (has_value v3)) (
    chk 97 (let! v4 := deref v3 in Ok (KwType_beq (kw_t v4) Kw_CNL)) (
    step 99 ((KeywordGroup_parse "CNL" RP_TAF md_default)) (fun v5 => 
    chk 100 (Ok (has_value v5)) (
    chk 101 (let! v6 := deref v5 in Ok (KwType_beq (kw_t v6) Kw_CNL)) (
    chk 103 (let! v7 := (KeywordGroup_parse "CNL" RP_UNKNOWN md_default) in Ok (negb (has_value v7))) (
    chk 104 (let! v8 := (KeywordGroup_parse "CNL" RP_RMK md_default) in Ok (negb (has_value v8))) (
    None))))))))))).

Definition t_KeywordGroup_parseCor : option N :=
    step 111 ((KeywordGroup_parse "COR" RP_HEADER md_default)) (fun v1 => 
    chk 112 (Ok (has_value v1)) (
    chk 113 (let! v2 := deref v1 in Ok (KwType_beq (kw_t v2) Kw_COR)) (
    step 115 ((KeywordGroup_parse "COR" RP_METAR md_default)) (fun v3 => 
    chk 116 (Ok (has_value v3)) (
    chk 117 (let! v4 := deref v3 in Ok (KwType_beq (kw_t v4) Kw_COR)) (
    chk 119 (let! v5 := (KeywordGroup_parse "COR" RP_UNKNOWN md_default) in Ok (negb (has_value v5))) (
    chk 120 (let! v6 := (KeywordGroup_parse "COR" RP_TAF md_default) in Ok (negb (has_value v6))) (
    chk 121 (let! v7 := (KeywordGroup_parse "COR" RP_RMK md_default) in Ok (negb (has_value v7))) (
    None))))))))).

Definition t_KeywordGroup_parseAuto : option N :=
    step 127 ((KeywordGroup_parse "AUTO" RP_METAR md_default)) (fun v1 => 
    chk 128 (Ok (has_value v1)) (
    chk 129 (let! v2 := deref v1 in Ok (KwType_beq (kw_t v2) Kw_AUTO)) (
    chk 131 (let! v3 := (KeywordGroup_parse "AUTO" RP_UNKNOWN md_default) in Ok (negb (has_value v3))) (
    chk 132 (let! v4 := (KeywordGroup_parse "AUTO" RP_HEADER md_default) in Ok (negb (has_value v4))) (
    chk 133 (let! v5 := (KeywordGroup_parse "AUTO" RP_TAF md_default) in Ok (negb (has_value v5))) (
    chk 134 (let! v6 := (KeywordGroup_parse "AUTO" RP_RMK md_default) in Ok (negb (has_value v6))) (
    None))))))).

Definition t_KeywordGroup_parseCavok : option N :=
    step 141 ((KeywordGroup_parse "CAVOK" RP_METAR md_default)) (fun v1 => 
    chk 142 (Ok (has_value v1)) (
    chk 143 (let! v2 := deref v1 in Ok (KwType_beq (kw_t v2) Kw_CAVOK)) (
    step 145 ((KeywordGroup_parse "CAVOK" RP_TAF md_default)) (fun v3 => 
    chk 146 (Ok (has_value v3)) (
    chk 147 (let! v4 := deref v3 in Ok (KwType_beq (kw_t v4) Kw_CAVOK)) (
    chk 149 (let! v5 := (KeywordGroup_parse "CAVOK" RP_UNKNOWN md_default) in Ok (negb (has_value v5))) (
    chk 150 (let! v6 := (KeywordGroup_parse "CAVOK" RP_HEADER md_default) in Ok (negb (has_value v6))) (
    chk 151 (let! v7 := (KeywordGroup_parse "CAVOK" RP_RMK md_default) in Ok (negb (has_value v7))) (
    None))))))))).

Definition t_KeywordGroup_parseRmk : option N :=
    step 158 ((KeywordGroup_parse "RMK" RP_METAR md_default)) (fun v1 => 
    chk 159 (Ok (has_value v1)) (
    chk 160 (let! v2 := deref v1 in Ok (KwType_beq (kw_t v2) Kw_RMK)) (
    step 162 ((KeywordGroup_parse "RMK" RP_TAF md_default)) (fun v3 => 
    chk 163 (Ok (has_value v3)) (
    chk 164 (let! v4 := deref v3 in Ok (KwType_beq (kw_t v4) Kw_RMK)) (
    chk 166 (let! v5 := (KeywordGroup_parse "RMK" RP_UNKNOWN md_default) in Ok (negb (has_value v5))) (
    chk 167 (let! v6 := (KeywordGroup_parse "RMK" RP_HEADER md_default) in Ok (negb (has_value v6))) (
    chk 168 (let! v7 := (KeywordGroup_parse "RMK" RP_RMK md_default) in Ok (negb (has_value v7))) (
    None))))))))).

Definition t_KeywordGroup_parseMaintenanceIndicator : option N :=
    step 175 ((KeywordGroup_parse "$" RP_UNKNOWN md_default)) (fun v1 => 
    chk 176 (Ok (has_value v1)) (
    chk 177 (let! v2 := deref v1 in Ok (KwType_beq (kw_t v2) Kw_MAINTENANCE_INDICATOR)) (
    step 179 ((KeywordGroup_parse "$" RP_HEADER md_default)) (fun v3 => 
    chk 180 (Ok (has_value v3)) (
    chk 181 (let! v4 := deref v3 in Ok (KwType_beq (kw_t v4) Kw_MAINTENANCE_INDICATOR)) (
    step 183 ((KeywordGroup_parse "$" RP_METAR md_default)) (fun v5 => 
    chk 184 (Ok (has_value v5)) (
    chk 185 (let! v6 := deref v5 in Ok (KwType_beq (kw_t v6) Kw_MAINTENANCE_INDICATOR)) (
    step 187 ((KeywordGroup_parse "$" RP_TAF md_default)) (fun v7 => 
    chk 188 (Ok (has_value v7)) (
    chk 189 (let! v8 := deref v7 in Ok (KwType_beq (kw_t v8) Kw_MAINTENANCE_INDICATOR)) (
    step 191 ((KeywordGroup_parse "$" RP_RMK md_default)) (fun v9 => 
    chk 192 (Ok (has_value v9)) (
    chk 193 (let! v10 := deref v9 in Ok (KwType_beq (kw_t v10) Kw_MAINTENANCE_INDICATOR)) (
    None))))))))))))))).

Definition t_KeywordGroup_parseAo1 : option N :=
    step 201 ((KeywordGroup_parse "AO1" RP_RMK md_default)) (fun v1 => 
    chk 202 (Ok (has_value v1)) (
    chk 203 (let! v2 := deref v1 in Ok (KwType_beq (kw_t v2) Kw_AO1)) (
    chk 205 (let! v3 := (KeywordGroup_parse "AO1" RP_UNKNOWN md_default) in Ok (negb (has_value v3))) (
    chk 206 (let! v4 := (KeywordGroup_parse "AO1" RP_HEADER md_default) in Ok (negb (has_value v4))) (
    chk 207 (let! v5 := (KeywordGroup_parse "AO1" RP_METAR md_default) in Ok (negb (has_value v5))) (
    chk 208 (let! v6 := (KeywordGroup_parse "AO1" RP_TAF md_default) in Ok (negb (has_value v6))) (
    None))))))).

Definition t_KeywordGroup_parseAo2 : option N :=
    step 215 ((KeywordGroup_parse "AO2" RP_RMK md_default)) (fun v1 => 
    chk 216 (Ok (has_value v1)) (
    chk 217 (let! v2 := deref v1 in Ok (KwType_beq (kw_t v2) Kw_AO2)) (
    chk 219 (let! v3 := (KeywordGroup_parse "AO2" RP_UNKNOWN md_default) in Ok (negb (has_value v3))) (
    chk 220 (let! v4 := (KeywordGroup_parse "AO2" RP_HEADER md_default) in Ok (negb (has_value v4))) (
    chk 221 (let! v5 := (KeywordGroup_parse "AO2" RP_METAR md_default) in Ok (negb (has_value v5))) (
    chk 222 (let! v6 := (KeywordGroup_parse "AO2" RP_TAF md_default) in Ok (negb (has_value v6))) (
    None))))))).

Definition t_KeywordGroup_parseAo1a : option N :=
    step 229 ((KeywordGroup_parse "AO1A" RP_RMK md_default)) (fun v1 => 
    chk 230 (Ok (has_value v1)) (
    chk 231 (let! v2 := deref v1 in Ok (KwType_beq (kw_t v2) Kw_AO1A)) (
    chk 233 (let! v3 := (KeywordGroup_parse "AO1A" RP_UNKNOWN md_default) in Ok (negb (has_value v3))) (
    chk 234 (let! v4 := (KeywordGroup_parse "AO1A" RP_HEADER md_default) in Ok (negb (has_value v4))) (
    chk 235 (let! v5 := (KeywordGroup_parse "AO1A" RP_METAR md_default) in Ok (negb (has_value v5))) (
    chk 236 (let! v6 := (KeywordGroup_parse "AO1A" RP_TAF md_default) in Ok (negb (has_value v6))) (
    None))))))).

Definition t_KeywordGroup_parseAo2a : option N :=
    step 243 ((KeywordGroup_parse "AO2A" RP_RMK md_default)) (fun v1 => 
    chk 244 (Ok (has_value v1)) (
    chk 245 (let! v2 := deref v1 in Ok (KwType_beq (kw_t v2) Kw_AO2A)) (
    chk 247 (let! v3 := (KeywordGroup_parse "AO2A" RP_UNKNOWN md_default) in Ok (negb (has_value v3))) (
    chk 248 (let! v4 := (KeywordGroup_parse "AO2A" RP_HEADER md_default) in Ok (negb (has_value v4))) (
    chk 249 (let! v5 := (KeywordGroup_parse "AO2A" RP_METAR md_default) in Ok (negb (has_value v5))) (
    chk 250 (let! v6 := (KeywordGroup_parse "AO2A" RP_TAF md_default) in Ok (negb (has_value v6))) (
    None))))))).

Definition t_KeywordGroup_parseNospeci : option N :=
    step 257 ((KeywordGroup_parse "NOSPECI" RP_RMK md_default)) (fun v1 => 
    chk 258 (Ok (has_value v1)) (
    chk 259 (let! v2 := deref v1 in Ok (KwType_beq (kw_t v2) Kw_NOSPECI)) (
    chk 261 (let! v3 := (KeywordGroup_parse "NOSPECI" RP_UNKNOWN md_default) in Ok (negb (has_value v3))) (
    chk 262 (let! v4 := (KeywordGroup_parse "NOSPECI" RP_HEADER md_default) in Ok (negb (has_value v4))) (
    chk 263 (let! v5 := (KeywordGroup_parse "NOSPECI" RP_METAR md_default) in Ok (negb (has_value v5))) (
    chk 264 (let! v6 := (KeywordGroup_parse "NOSPECI" RP_TAF md_default) in Ok (negb (has_value v6))) (
    None))))))).

Definition t_KeywordGroup_parseOther : option N :=
    chk 273 (let! v1 := (KeywordGroup_parse "" RP_HEADER md_default) in Ok (negb (has_value v1))) (
    chk 274 (let! v2 := (KeywordGroup_parse "METAF" RP_HEADER md_default) in Ok (negb (has_value v2))) (
    chk 275 (let! v3 := (KeywordGroup_parse "META" RP_HEADER md_default) in Ok (negb (has_value v3))) (
    chk 276 (let! v4 := (KeywordGroup_parse "MMETAR" RP_HEADER md_default) in Ok (negb (has_value v4))) (
    None)))).

Definition t_KeywordGroup_isValidTrue : option N :=
    step 285 ((KeywordGroup_parse "METAR" RP_HEADER md_default)) (fun v1 => 
    chk 286 (Ok (has_value v1)) (
    chk 287 (let! v2 := deref v1 in Ok (KeywordGroup_isValid v2)) (
    step 289 ((KeywordGroup_parse "SPECI" RP_HEADER md_default)) (fun v3 => 
    chk 290 (Ok (has_value v3)) (
    chk 291 (let! v4 := deref v3 in Ok (KeywordGroup_isValid v4)) (
    step 293 ((KeywordGroup_parse "TAF" RP_HEADER md_default)) (fun v5 => 
    chk 294 (Ok (has_value v5)) (
    chk 295 (let! v6 := deref v5 in Ok (KeywordGroup_isValid v6)) (
    step 297 ((KeywordGroup_parse "AMD" RP_HEADER md_default)) (fun v7 => 
    chk 298 (Ok (has_value v7)) (
    chk 299 (let! v8 := deref v7 in Ok (KeywordGroup_isValid v8)) (
    step 301 ((KeywordGroup_parse "NIL" RP_HEADER md_default)) (fun v9 => 
    chk 302 (Ok (has_value v9)) (
    chk 303 (let! v10 := deref v9 in Ok (KeywordGroup_isValid v10)) (
    step 305 ((KeywordGroup_parse "CNL" RP_HEADER md_default)) (fun v11 => 
    chk 306 (Ok (has_value v11)) (
    chk 307 (let! v12 := deref v11 in Ok (KeywordGroup_isValid v12)) (
    step 309 ((KeywordGroup_parse "COR" RP_HEADER md_default)) (fun v13 => 
    chk 310 (Ok (has_value v13)) (
    chk 311 (let! v14 := deref v13 in Ok (KeywordGroup_isValid v14)) (
    step 313 ((KeywordGroup_parse "AUTO" RP_METAR md_default)) (fun v15 => 
    chk 314 (Ok (has_value v15)) (
    chk 315 (let! v16 := deref v15 in Ok (KeywordGroup_isValid v16)) (
    step 317 ((KeywordGroup_parse "CAVOK" RP_METAR md_default)) (fun v17 => 
    chk 318 (Ok (has_value v17)) (
    chk 319 (let! v18 := deref v17 in Ok (KeywordGroup_isValid v18)) (
    step 321 ((KeywordGroup_parse "RMK" RP_METAR md_default)) (fun v19 => 
    chk 322 (Ok (has_value v19)) (
    chk 323 (let! v20 := deref v19 in Ok (KeywordGroup_isValid v20)) (
    step 325 ((KeywordGroup_parse "AO1" RP_RMK md_default)) (fun v21 => 
    chk 326 (Ok (has_value v21)) (
    chk 327 (let! v22 := deref v21 in Ok (KeywordGroup_isValid v22)) (
    step 329 ((KeywordGroup_parse "AO2" RP_RMK md_default)) (fun v23 => 
    chk 330 (Ok (has_value v23)) (
    chk 331 (let! v24 := deref v23 in Ok (KeywordGroup_isValid v24)) (
    step 333 ((KeywordGroup_parse "AO1A" RP_RMK md_default)) (fun v25 => 
    chk 334 (Ok (has_value v25)) (
    chk 335 (let! v26 := deref v25 in Ok (KeywordGroup_isValid v26)) (
    step 337 ((KeywordGroup_parse "AO2A" RP_RMK md_default)) (fun v27 => 
    chk 338 (Ok (has_value v27)) (
    chk 339 (let! v28 := deref v27 in Ok (KeywordGroup_isValid v28)) (
    step 341 ((KeywordGroup_parse "NOSPECI" RP_RMK md_default)) (fun v29 => 
    chk 342 (Ok (has_value v29)) (
    chk 343 (let! v30 := deref v29 in Ok (KeywordGroup_isValid v30)) (
    None))))))))))))))))))))))))))))))))))))))))))))).

Example tests_keywordgroup_pass : failures
  [("KeywordGroup_parseMetar", t_KeywordGroup_parseMetar);
   ("KeywordGroup_parseSpeci", t_KeywordGroup_parseSpeci);
   ("KeywordGroup_parseTaf", t_KeywordGroup_parseTaf);
   ("KeywordGroup_parseAmd", t_KeywordGroup_parseAmd);
   ("KeywordGroup_parseNil", t_KeywordGroup_parseNil);
   ("KeywordGroup_parseCnl", t_KeywordGroup_parseCnl);
   ("KeywordGroup_parseCor", t_KeywordGroup_parseCor);
   ("KeywordGroup_parseAuto", t_KeywordGroup_parseAuto);
   ("KeywordGroup_parseCavok", t_KeywordGroup_parseCavok);
   ("KeywordGroup_parseRmk", t_KeywordGroup_parseRmk);
   ("KeywordGroup_parseMaintenanceIndicator", t_KeywordGroup_parseMaintenanceIndicator);
   ("KeywordGroup_parseAo1", t_KeywordGroup_parseAo1);
   ("KeywordGroup_parseAo2", t_KeywordGroup_parseAo2);
   ("KeywordGroup_parseAo1a", t_KeywordGroup_parseAo1a);
   ("KeywordGroup_parseAo2a", t_KeywordGroup_parseAo2a);
   ("KeywordGroup_parseNospeci", t_KeywordGroup_parseNospeci);
   ("KeywordGroup_parseOther", t_KeywordGroup_parseOther);
   ("KeywordGroup_isValidTrue", t_KeywordGroup_isValidTrue)] = [].
Proof. vm_compute. reflexivity. Qed.
