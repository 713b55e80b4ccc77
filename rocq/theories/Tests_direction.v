(** Generated by tools/gen_tests.py from /repo/test/test_direction.cpp: the project's own unit tests, run
    against the model. These are tests of the model's fidelity, not properties. *)

From Verif Require Import Prim Regex Float Values Weather Groups1 Groups2 Groups3 Groups4 Parser TestLib.
Local Open Scope string_scope.
Local Open Scope bool_scope.

Definition t_Direction_fromCardinalStringN : option N :=
    chk 21 (Ok (has_value (Direction_fromCardinalString "N" false false))) (
    chk 22 (let! v1 := deref (Direction_fromCardinalString "N" false false) in let! v2 := deref (Direction_degrees v1) in Ok (N.eqb v2 360%N)) (
    chk 23 (let! v3 := deref (Direction_fromCardinalString "N" false false) in Ok (DirType_beq (dirType v3) DT_VALUE_CARDINAL)) (
    None))).

Definition t_Direction_fromCardinalStringNW : option N :=
    chk 28 (Ok (has_value (Direction_fromCardinalString "NW" false false))) (
    chk 29 (let! v1 := deref (Direction_fromCardinalString "NW" false false) in let! v2 := deref (Direction_degrees v1) in Ok (N.eqb v2 315%N)) (
    chk 30 (let! v3 := deref (Direction_fromCardinalString "NW" false false) in Ok (DirType_beq (dirType v3) DT_VALUE_CARDINAL)) (
    None))).

Definition t_Direction_fromCardinalStringW : option N :=
    chk 35 (Ok (has_value (Direction_fromCardinalString "W" false false))) (
    chk 36 (let! v1 := deref (Direction_fromCardinalString "W" false false) in let! v2 := deref (Direction_degrees v1) in Ok (N.eqb v2 270%N)) (
    chk 37 (let! v3 := deref (Direction_fromCardinalString "W" false false) in Ok (DirType_beq (dirType v3) DT_VALUE_CARDINAL)) (
    None))).

Definition t_Direction_fromCardinalStringSW : option N :=
    chk 42 (Ok (has_value (Direction_fromCardinalString "SW" false false))) (
    chk 43 (let! v1 := deref (Direction_fromCardinalString "SW" false false) in let! v2 := deref (Direction_degrees v1) in Ok (N.eqb v2 225%N)) (
    chk 44 (let! v3 := deref (Direction_fromCardinalString "SW" false false) in Ok (DirType_beq (dirType v3) DT_VALUE_CARDINAL)) (
    None))).

Definition t_Direction_fromCardinalStringS : option N :=
    chk 49 (Ok (has_value (Direction_fromCardinalString "S" false false))) (
    chk 50 (let! v1 := deref (Direction_fromCardinalString "S" false false) in let! v2 := deref (Direction_degrees v1) in Ok (N.eqb v2 180%N)) (
    chk 51 (let! v3 := deref (Direction_fromCardinalString "S" false false) in Ok (DirType_beq (dirType v3) DT_VALUE_CARDINAL)) (
    None))).

Definition t_Direction_fromCardinalStringSE : option N :=
    chk 56 (Ok (has_value (Direction_fromCardinalString "SE" false false))) (
    chk 57 (let! v1 := deref (Direction_fromCardinalString "SE" false false) in let! v2 := deref (Direction_degrees v1) in Ok (N.eqb v2 135%N)) (
    chk 58 (let! v3 := deref (Direction_fromCardinalString "SE" false false) in Ok (DirType_beq (dirType v3) DT_VALUE_CARDINAL)) (
    None))).

Definition t_Direction_fromCardinalStringE : option N :=
    chk 63 (Ok (has_value (Direction_fromCardinalString "E" false false))) (
    chk 64 (let! v1 := deref (Direction_fromCardinalString "E" false false) in let! v2 := deref (Direction_degrees v1) in Ok (N.eqb v2 90%N)) (
    chk 65 (let! v3 := deref (Direction_fromCardinalString "E" false false) in Ok (DirType_beq (dirType v3) DT_VALUE_CARDINAL)) (
    None))).

Definition t_Direction_fromCardinalStringNE : option N :=
    chk 70 (Ok (has_value (Direction_fromCardinalString "NE" false false))) (
    chk 71 (let! v1 := deref (Direction_fromCardinalString "NE" false false) in let! v2 := deref (Direction_degrees v1) in Ok (N.eqb v2 45%N)) (
    chk 72 (let! v3 := deref (Direction_fromCardinalString "NE" false false) in Ok (DirType_beq (dirType v3) DT_VALUE_CARDINAL)) (
    None))).

Definition t_Direction_fromCardinalStringNDV : option N :=
    chk 77 (Ok (has_value (Direction_fromCardinalString "NDV" false false))) (
    chk 78 (let! v1 := deref (Direction_fromCardinalString "NDV" false false) in Ok (negb (has_value (Direction_degrees v1)))) (
    chk 79 (let! v2 := deref (Direction_fromCardinalString "NDV" false false) in Ok (DirType_beq (dirType v2) DT_NDV)) (
    None))).

Definition t_Direction_fromCardinalStringOhd : option N :=
    chk 84 (Ok (has_value (Direction_fromCardinalString "OHD" true false))) (
    chk 85 (let! v1 := deref (Direction_fromCardinalString "OHD" true false) in Ok (negb (has_value (Direction_degrees v1)))) (
    chk 86 (let! v2 := deref (Direction_fromCardinalString "OHD" true false) in Ok (DirType_beq (dirType v2) DT_OVERHEAD)) (
    chk 88 (Ok (negb (has_value (Direction_fromCardinalString "OHD" false false)))) (
    None)))).

Definition t_Direction_fromCardinalStringAlqds : option N :=
    chk 93 (Ok (has_value (Direction_fromCardinalString "ALQDS" true false))) (
    chk 94 (let! v1 := deref (Direction_fromCardinalString "ALQDS" true false) in Ok (negb (has_value (Direction_degrees v1)))) (
    chk 95 (let! v2 := deref (Direction_fromCardinalString "ALQDS" true false) in Ok (DirType_beq (dirType v2) DT_ALQDS)) (
    chk 97 (Ok (negb (has_value (Direction_fromCardinalString "ALQDS" false false)))) (
    None)))).

Definition t_Direction_fromCardinalStringUnknown : option N :=
    chk 102 (Ok (has_value (Direction_fromCardinalString "UNKNOWN" false true))) (
    chk 103 (let! v1 := deref (Direction_fromCardinalString "UNKNOWN" false true) in Ok (negb (has_value (Direction_degrees v1)))) (
    chk 104 (let! v2 := deref (Direction_fromCardinalString "UNKNOWN" false true) in Ok (DirType_beq (dirType v2) DT_UNKNOWN)) (
    chk 106 (Ok (negb (has_value (Direction_fromCardinalString "UNKNOWN" false false)))) (
    None)))).

Definition t_Direction_fromCardinalStringSpecialOther : option N :=
    chk 110 (Ok (negb (has_value (Direction_fromCardinalString "///" false false)))) (
    chk 111 (Ok (negb (has_value (Direction_fromCardinalString "VRB" false false)))) (
    None)).

Definition t_Direction_fromCardinalStringOther : option N :=
    chk 115 (Ok (negb (has_value (Direction_fromCardinalString "" false false)))) (
    chk 117 (Ok (negb (has_value (Direction_fromCardinalString "AAA" false false)))) (
    chk 118 (Ok (negb (has_value (Direction_fromCardinalString "212" false false)))) (
    chk 119 (Ok (negb (has_value (Direction_fromCardinalString "SDV" false false)))) (
    chk 121 (Ok (negb (has_value (Direction_fromCardinalString "WS" false false)))) (
    chk 122 (Ok (negb (has_value (Direction_fromCardinalString "ES" false false)))) (
    chk 123 (Ok (negb (has_value (Direction_fromCardinalString "WN" false false)))) (
    chk 124 (Ok (negb (has_value (Direction_fromCardinalString "EN" false false)))) (
    chk 126 (Ok (negb (has_value (Direction_fromCardinalString "EW" false false)))) (
    chk 127 (Ok (negb (has_value (Direction_fromCardinalString "WE" false false)))) (
    chk 128 (Ok (negb (has_value (Direction_fromCardinalString "NS" false false)))) (
    chk 129 (Ok (negb (has_value (Direction_fromCardinalString "SN" false false)))) (
    None)))))))))))).

Definition t_Direction_fromDegreesString : option N :=
    step 140 ((Direction_fromDegreesString "010")) (fun v1 => 
    chk 141 (Ok (has_value v1)) (
    chk 142 (let! v2 := deref v1 in let! v3 := deref (Direction_degrees v2) in Ok (N.eqb v3 10%N)) (
    chk 143 (let! v4 := deref v1 in Ok (DirType_beq (dirType v4) DT_VALUE_DEGREES)) (
    step 145 ((Direction_fromDegreesString "270")) (fun v5 => 
    chk 146 (Ok (has_value v5)) (
    chk 147 (let! v6 := deref v5 in let! v7 := deref (Direction_degrees v6) in Ok (N.eqb v7 270%N)) (
    chk 148 (let! v8 := deref v5 in Ok (DirType_beq (dirType v8) DT_VALUE_DEGREES)) (
    None)))))))).

Definition t_Direction_fromDegreesStringVariable : option N :=
    step 152 ((Direction_fromDegreesString "VRB")) (fun v1 => 
    chk 153 (Ok (has_value v1)) (
    chk 154 (let! v2 := deref v1 in Ok (negb (has_value (Direction_degrees v2)))) (
    chk 155 (let! v3 := deref v1 in Ok (DirType_beq (dirType v3) DT_VARIABLE)) (
    None)))).

Definition t_Direction_fromDegreesStringNotReported : option N :=
    step 159 ((Direction_fromDegreesString "///")) (fun v1 => 
    chk 160 (Ok (has_value v1)) (
    chk 161 (let! v2 := deref v1 in Ok (negb (has_value (Direction_degrees v2)))) (
    chk 162 (let! v3 := deref v1 in Ok (DirType_beq (dirType v3) DT_NOT_REPORTED)) (
    None)))).

Definition t_Direction_fromDegreesStringLastDigitNonZero : option N :=
    chk 166 (let! v1 := (Direction_fromDegreesString "272") in Ok (negb (has_value v1))) (
    chk 167 (let! v2 := (Direction_fromDegreesString "001") in Ok (negb (has_value v2))) (
    None)).

Definition t_Direction_fromDegreesStringWrongFormat : option N :=
    chk 171 (let! v1 := (Direction_fromDegreesString "") in Ok (negb (has_value v1))) (
    chk 172 (let! v2 := (Direction_fromDegreesString "120A") in Ok (negb (has_value v2))) (
    chk 173 (let! v3 := (Direction_fromDegreesString "A12") in Ok (negb (has_value v3))) (
    chk 174 (let! v4 := (Direction_fromDegreesString "AAA") in Ok (negb (has_value v4))) (
    chk 175 (let! v5 := (Direction_fromDegreesString "12") in Ok (negb (has_value v5))) (
    chk 176 (let! v6 := (Direction_fromDegreesString "0120") in Ok (negb (has_value v6))) (
    chk 177 (let! v7 := (Direction_fromDegreesString "//") in Ok (negb (has_value v7))) (
    chk 178 (let! v8 := (Direction_fromDegreesString "////") in Ok (negb (has_value v8))) (
    None)))))))).

Definition t_Direction_fromSectorString_N_NE : option N :=
    chk 190 (Ok (has_value (Direction_fromSectorString "N-NE"))) (
    step 191 (deref (Direction_fromSectorString "N-NE")) (fun v1 => 
    chk 192 (Ok (DirType_beq (dirType (fst v1)) DT_VALUE_CARDINAL)) (
    chk 193 (Ok (Cardinal_beq (Direction_cardinal (fst v1) false) Cd_N)) (
    step 195 (deref (Direction_fromSectorString "N-NE")) (fun v2 => 
    chk 196 (Ok (DirType_beq (dirType (snd v2)) DT_VALUE_CARDINAL)) (
    chk 197 (Ok (Cardinal_beq (Direction_cardinal (snd v2) false) Cd_NE)) (
    None))))))).

Definition t_Direction_fromSectorString_N_E_S : option N :=
    chk 202 (Ok (has_value (Direction_fromSectorString "N-E-S"))) (
    step 203 (deref (Direction_fromSectorString "N-E-S")) (fun v1 => 
    chk 204 (Ok (DirType_beq (dirType (fst v1)) DT_VALUE_CARDINAL)) (
    chk 205 (Ok (Cardinal_beq (Direction_cardinal (fst v1) false) Cd_N)) (
    step 207 (deref (Direction_fromSectorString "N-E-S")) (fun v2 => 
    chk 208 (Ok (DirType_beq (dirType (snd v2)) DT_VALUE_CARDINAL)) (
    chk 209 (Ok (Cardinal_beq (Direction_cardinal (snd v2) false) Cd_S)) (
    None))))))).

Definition t_Direction_fromSectorString_N_S : option N :=
    chk 214 (Ok (has_value (Direction_fromSectorString "N-S"))) (
    step 215 (deref (Direction_fromSectorString "N-S")) (fun v1 => 
    chk 216 (Ok (DirType_beq (dirType (fst v1)) DT_VALUE_CARDINAL)) (
    chk 217 (Ok (Cardinal_beq (Direction_cardinal (fst v1) false) Cd_N)) (
    step 219 (deref (Direction_fromSectorString "N-S")) (fun v2 => 
    chk 220 (Ok (DirType_beq (dirType (snd v2)) DT_VALUE_CARDINAL)) (
    chk 221 (Ok (Cardinal_beq (Direction_cardinal (snd v2) false) Cd_S)) (
    None))))))).

Definition t_Direction_fromSectorString_N_NE_E_SW_S : option N :=
    chk 226 (Ok (has_value (Direction_fromSectorString "N-NE-E-SW-S"))) (
    step 227 (deref (Direction_fromSectorString "N-NE-E-SW-S")) (fun v1 => 
    chk 228 (Ok (DirType_beq (dirType (fst v1)) DT_VALUE_CARDINAL)) (
    chk 229 (Ok (Cardinal_beq (Direction_cardinal (fst v1) false) Cd_N)) (
    step 231 (deref (Direction_fromSectorString "N-NE-E-SW-S")) (fun v2 => 
    chk 232 (Ok (DirType_beq (dirType (snd v2)) DT_VALUE_CARDINAL)) (
    chk 233 (Ok (Cardinal_beq (Direction_cardinal (snd v2) false) Cd_S)) (
    None))))))).

Definition t_Direction_fromSectorString_N_W_S : option N :=
    chk 239 (Ok (has_value (Direction_fromSectorString "N-W-S"))) (
    step 240 (deref (Direction_fromSectorString "N-W-S")) (fun v1 => 
    chk 241 (Ok (DirType_beq (dirType (fst v1)) DT_VALUE_CARDINAL)) (
    chk 242 (Ok (Cardinal_beq (Direction_cardinal (fst v1) false) Cd_N)) (
    step 244 (deref (Direction_fromSectorString "N-W-S")) (fun v2 => 
    chk 245 (Ok (DirType_beq (dirType (snd v2)) DT_VALUE_CARDINAL)) (
    chk 246 (Ok (Cardinal_beq (Direction_cardinal (snd v2) false) Cd_S)) (
    None))))))).

Definition t_Direction_fromSectorString_WrongCardinal : option N :=
    chk 250 (Ok (negb (has_value (Direction_fromSectorString "NN-S")))) (
    chk 251 (Ok (negb (has_value (Direction_fromSectorString "EN-S")))) (
    chk 252 (Ok (negb (has_value (Direction_fromSectorString "WN-S")))) (
    chk 253 (Ok (negb (has_value (Direction_fromSectorString "EW-S")))) (
    chk 254 (Ok (negb (has_value (Direction_fromSectorString "WE-S")))) (
    chk 255 (Ok (negb (has_value (Direction_fromSectorString "N-WE-S")))) (
    chk 256 (Ok (negb (has_value (Direction_fromSectorString "N-EW-S")))) (
    chk 257 (Ok (negb (has_value (Direction_fromSectorString "N-EN-S")))) (
    chk 258 (Ok (negb (has_value (Direction_fromSectorString "N-WN-S")))) (
    chk 259 (Ok (negb (has_value (Direction_fromSectorString "N-NN-S")))) (
    chk 260 (Ok (negb (has_value (Direction_fromSectorString "N-WW-S")))) (
    None))))))))))).

Definition t_Direction_isValidCorrectDegrees : option N :=
    step 269 ((Direction_fromDegreesString "000")) (fun v1 => 
    chk 270 (Ok (has_value v1)) (
    chk 271 (let! v2 := deref v1 in Ok (Direction_isValid v2)) (
    step 273 ((Direction_fromDegreesString "040")) (fun v3 => 
    chk 274 (Ok (has_value v3)) (
    chk 275 (let! v4 := deref v3 in Ok (Direction_isValid v4)) (
    step 277 ((Direction_fromDegreesString "360")) (fun v5 => 
    chk 278 (Ok (has_value v5)) (
    chk 279 (let! v6 := deref v5 in Ok (Direction_isValid v6)) (
    step 281 ((Direction_fromDegreesString "///")) (fun v7 => 
    chk 282 (Ok (has_value v7)) (
    chk 283 (let! v8 := deref v7 in Ok (Direction_isValid v8)) (
    step 285 ((Direction_fromDegreesString "VRB")) (fun v9 => 
    chk 286 (Ok (has_value v9)) (
    chk 287 (let! v10 := deref v9 in Ok (Direction_isValid v10)) (
    None))))))))))))))).

Definition t_Direction_isValidCorrectCardinal : option N :=
    chk 292 (Ok (has_value (Direction_fromCardinalString "NDV" false false))) (
    chk 293 (let! v1 := deref (Direction_fromCardinalString "NDV" false false) in Ok (Direction_isValid v1)) (
    chk 296 (Ok (has_value (Direction_fromCardinalString "NW" false false))) (
    chk 297 (let! v2 := deref (Direction_fromCardinalString "NW" false false) in Ok (Direction_isValid v2)) (
    chk 300 (Ok (has_value (Direction_fromCardinalString "ALQDS" true false))) (
    chk 301 (let! v3 := deref (Direction_fromCardinalString "ALQDS" true false) in Ok (Direction_isValid v3)) (
    chk 304 (Ok (has_value (Direction_fromCardinalString "OHD" true false))) (
    chk 305 (let! v4 := deref (Direction_fromCardinalString "OHD" true false) in Ok (Direction_isValid v4)) (
    chk 308 (Ok (has_value (Direction_fromCardinalString "UNKNOWN" false true))) (
    chk 309 (let! v5 := deref (Direction_fromCardinalString "UNKNOWN" false true) in Ok (Direction_isValid v5)) (
    None)))))))))).

Definition t_Direction_isValidOutOfRange : option N :=
    step 313 ((Direction_fromDegreesString "370")) (fun v1 => 
    chk 314 (Ok (has_value v1)) (
    chk 315 (let! v2 := deref v1 in Ok (negb (Direction_isValid v2))) (
    None))).

Definition t_Direction_cardinalNorth : option N :=
    step 325 ((Direction_fromDegreesString "020")) (fun v1 => 
    chk 326 (Ok (has_value v1)) (
    chk 327 (let! v2 := deref v1 in Ok (Cardinal_beq (Direction_cardinal v2 false) Cd_N)) (
    step 329 ((Direction_fromDegreesString "340")) (fun v3 => 
    chk 330 (Ok (has_value v3)) (
    chk 331 (let! v4 := deref v3 in Ok (Cardinal_beq (Direction_cardinal v4 false) Cd_N)) (
    None)))))).

Definition t_Direction_cardinalNorthEast : option N :=
    step 335 ((Direction_fromDegreesString "030")) (fun v1 => 
    chk 336 (Ok (has_value v1)) (
    chk 337 (let! v2 := deref v1 in Ok (Cardinal_beq (Direction_cardinal v2 false) Cd_NE)) (
    step 339 ((Direction_fromDegreesString "060")) (fun v3 => 
    chk 340 (Ok (has_value v3)) (
    chk 341 (let! v4 := deref v3 in Ok (Cardinal_beq (Direction_cardinal v4 false) Cd_NE)) (
    None)))))).

Definition t_Direction_cardinalEast : option N :=
    step 345 ((Direction_fromDegreesString "070")) (fun v1 => 
    chk 346 (Ok (has_value v1)) (
    chk 347 (let! v2 := deref v1 in Ok (Cardinal_beq (Direction_cardinal v2 false) Cd_E)) (
    step 349 ((Direction_fromDegreesString "110")) (fun v3 => 
    chk 350 (Ok (has_value v3)) (
    chk 351 (let! v4 := deref v3 in Ok (Cardinal_beq (Direction_cardinal v4 false) Cd_E)) (
    None)))))).

Definition t_Direction_cardinalSouthEast : option N :=
    step 355 ((Direction_fromDegreesString "120")) (fun v1 => 
    chk 356 (Ok (has_value v1)) (
    chk 357 (let! v2 := deref v1 in Ok (Cardinal_beq (Direction_cardinal v2 false) Cd_SE)) (
    step 359 ((Direction_fromDegreesString "150")) (fun v3 => 
    chk 360 (Ok (has_value v3)) (
    chk 361 (let! v4 := deref v3 in Ok (Cardinal_beq (Direction_cardinal v4 false) Cd_SE)) (
    None)))))).

Definition t_Direction_cardinalSouth : option N :=
    step 365 ((Direction_fromDegreesString "160")) (fun v1 => 
    chk 366 (Ok (has_value v1)) (
    chk 367 (let! v2 := deref v1 in Ok (Cardinal_beq (Direction_cardinal v2 false) Cd_S)) (
    step 369 ((Direction_fromDegreesString "200")) (fun v3 => 
    chk 370 (Ok (has_value v3)) (
    chk 371 (let! v4 := deref v3 in Ok (Cardinal_beq (Direction_cardinal v4 false) Cd_S)) (
    None)))))).

Definition t_Direction_cardinalSouthWest : option N :=
    step 375 ((Direction_fromDegreesString "210")) (fun v1 => 
    chk 376 (Ok (has_value v1)) (
    chk 377 (let! v2 := deref v1 in Ok (Cardinal_beq (Direction_cardinal v2 false) Cd_SW)) (
    step 379 ((Direction_fromDegreesString "240")) (fun v3 => 
    chk 380 (Ok (has_value v3)) (
    chk 381 (let! v4 := deref v3 in Ok (Cardinal_beq (Direction_cardinal v4 false) Cd_SW)) (
    None)))))).

Definition t_Direction_cardinalWest : option N :=
    step 385 ((Direction_fromDegreesString "250")) (fun v1 => 
    chk 386 (Ok (has_value v1)) (
    chk 387 (let! v2 := deref v1 in Ok (Cardinal_beq (Direction_cardinal v2 false) Cd_W)) (
    step 389 ((Direction_fromDegreesString "290")) (fun v3 => 
    chk 390 (Ok (has_value v3)) (
    chk 391 (let! v4 := deref v3 in Ok (Cardinal_beq (Direction_cardinal v4 false) Cd_W)) (
    None)))))).

Definition t_Direction_cardinalNorthWest : option N :=
    step 395 ((Direction_fromDegreesString "300")) (fun v1 => 
    chk 396 (Ok (has_value v1)) (
    chk 397 (let! v2 := deref v1 in Ok (Cardinal_beq (Direction_cardinal v2 false) Cd_NW)) (
    step 399 ((Direction_fromDegreesString "330")) (fun v3 => 
    chk 400 (Ok (has_value v3)) (
    chk 401 (let! v4 := deref v3 in Ok (Cardinal_beq (Direction_cardinal v4 false) Cd_NW)) (
    None)))))).

Definition t_Direction_cardinalTrueDirectionsDisabled : option N :=
    step 405 ((Direction_fromDegreesString "000")) (fun v1 => 
    chk 406 (Ok (has_value v1)) (
    chk 407 (let! v2 := deref v1 in Ok (Cardinal_beq (Direction_cardinal v2 false) Cd_N)) (
    step 409 ((Direction_fromDegreesString "360")) (fun v3 => 
    chk 410 (Ok (has_value v3)) (
    chk 411 (let! v4 := deref v3 in Ok (Cardinal_beq (Direction_cardinal v4 false) Cd_N)) (
    step 413 ((Direction_fromDegreesString "090")) (fun v5 => 
    chk 414 (Ok (has_value v5)) (
    chk 415 (let! v6 := deref v5 in Ok (Cardinal_beq (Direction_cardinal v6 false) Cd_E)) (
    step 417 ((Direction_fromDegreesString "180")) (fun v7 => 
    chk 418 (Ok (has_value v7)) (
    chk 419 (let! v8 := deref v7 in Ok (Cardinal_beq (Direction_cardinal v8 false) Cd_S)) (
    step 421 ((Direction_fromDegreesString "270")) (fun v9 => 
    chk 422 (Ok (has_value v9)) (
    chk 423 (let! v10 := deref v9 in Ok (Cardinal_beq (Direction_cardinal v10 false) Cd_W)) (
    None))))))))))))))).

Definition t_Direction_cardinalTrueDirectionsEnabled : option N :=
    step 427 ((Direction_fromDegreesString "360")) (fun v1 => 
    chk 428 (Ok (has_value v1)) (
    chk 429 (let! v2 := deref v1 in Ok (Cardinal_beq (Direction_cardinal v2 true) Cd_TRUE_N)) (
    step 431 ((Direction_fromDegreesString "090")) (fun v3 => 
    chk 432 (Ok (has_value v3)) (
    chk 433 (let! v4 := deref v3 in Ok (Cardinal_beq (Direction_cardinal v4 true) Cd_TRUE_E)) (
    step 435 ((Direction_fromDegreesString "180")) (fun v5 => 
    chk 436 (Ok (has_value v5)) (
    chk 437 (let! v6 := deref v5 in Ok (Cardinal_beq (Direction_cardinal v6 true) Cd_TRUE_S)) (
    step 439 ((Direction_fromDegreesString "270")) (fun v7 => 
    chk 440 (Ok (has_value v7)) (
    chk 441 (let! v8 := deref v7 in Ok (Cardinal_beq (Direction_cardinal v8 true) Cd_TRUE_W)) (
    None)))))))))))).

Definition t_Direction_cardinalInvalid : option N :=
    step 445 ((Direction_fromDegreesString "370")) (fun v1 => 
    chk 446 (Ok (has_value v1)) (
    chk 447 (let! v2 := deref v1 in Ok (Cardinal_beq (Direction_cardinal v2 false) Cd_NOT_REPORTED)) (
    step 449 ((Direction_fromDegreesString "720")) (fun v3 => 
    chk 450 (Ok (has_value v3)) (
    chk 451 (let! v4 := deref v3 in Ok (Cardinal_beq (Direction_cardinal v4 false) Cd_NOT_REPORTED)) (
    None)))))).

Definition t_Direction_cardinalNotReported : option N :=
    step 455 ((Direction_fromDegreesString "///")) (fun v1 => 
    chk 456 (Ok (has_value v1)) (
    chk 457 (let! v2 := deref v1 in Ok (Cardinal_beq (Direction_cardinal v2 false) Cd_NOT_REPORTED)) (
    None))).

Definition t_Direction_cardinalVrb : option N :=
    step 461 ((Direction_fromDegreesString "VRB")) (fun v1 => 
    chk 462 (Ok (has_value v1)) (
    chk 463 (let! v2 := deref v1 in Ok (Cardinal_beq (Direction_cardinal v2 false) Cd_VRB)) (
    None))).

Definition t_Direction_cardinalNdv : option N :=
    chk 468 (Ok (has_value (Direction_fromCardinalString "NDV" false false))) (
    chk 469 (let! v1 := deref (Direction_fromCardinalString "NDV" false false) in Ok (Cardinal_beq (Direction_cardinal v1 false) Cd_NDV)) (
    None)).

Definition t_Direction_cardinalOhd : option N :=
    chk 474 (Ok (has_value (Direction_fromCardinalString "OHD" true false))) (
    chk 475 (let! v1 := deref (Direction_fromCardinalString "OHD" true false) in Ok (Cardinal_beq (Direction_cardinal v1 false) Cd_OHD)) (
    None)).

Definition t_Direction_cardinalAlqds : option N :=
    chk 480 (Ok (has_value (Direction_fromCardinalString "ALQDS" true false))) (
    chk 481 (let! v1 := deref (Direction_fromCardinalString "ALQDS" true false) in Ok (Cardinal_beq (Direction_cardinal v1 false) Cd_ALQDS)) (
    None)).

Definition t_Direction_rotateOctantClockwiseDirections : option N :=
    chk 491 (Ok (Cardinal_beq (Direction_rotateOctantClockwise Cd_N) Cd_NE)) (
    chk 493 (Ok (Cardinal_beq (Direction_rotateOctantClockwise Cd_NE) Cd_E)) (
    chk 495 (Ok (Cardinal_beq (Direction_rotateOctantClockwise Cd_E) Cd_SE)) (
    chk 497 (Ok (Cardinal_beq (Direction_rotateOctantClockwise Cd_SE) Cd_S)) (
    chk 499 (Ok (Cardinal_beq (Direction_rotateOctantClockwise Cd_S) Cd_SW)) (
    chk 501 (Ok (Cardinal_beq (Direction_rotateOctantClockwise Cd_SW) Cd_W)) (
    chk 503 (Ok (Cardinal_beq (Direction_rotateOctantClockwise Cd_W) Cd_NW)) (
    chk 505 (Ok (Cardinal_beq (Direction_rotateOctantClockwise Cd_NW) Cd_N)) (
    None)))))))).

Definition t_Direction_rotateOctantClockwiseTrueDirections : option N :=
    chk 510 (Ok (Cardinal_beq (Direction_rotateOctantClockwise Cd_TRUE_N) Cd_NE)) (
    chk 512 (Ok (Cardinal_beq (Direction_rotateOctantClockwise Cd_TRUE_E) Cd_SE)) (
    chk 514 (Ok (Cardinal_beq (Direction_rotateOctantClockwise Cd_TRUE_S) Cd_SW)) (
    chk 516 (Ok (Cardinal_beq (Direction_rotateOctantClockwise Cd_TRUE_W) Cd_NW)) (
    None)))).

Definition t_Direction_rotateOctantClockwiseOther : option N :=
    chk 521 (Ok (Cardinal_beq (Direction_rotateOctantClockwise Cd_NOT_REPORTED) Cd_NOT_REPORTED)) (
    chk 523 (Ok (Cardinal_beq (Direction_rotateOctantClockwise Cd_VRB) Cd_NOT_REPORTED)) (
    chk 525 (Ok (Cardinal_beq (Direction_rotateOctantClockwise Cd_NDV) Cd_NOT_REPORTED)) (
    chk 527 (Ok (Cardinal_beq (Direction_rotateOctantClockwise Cd_OHD) Cd_NOT_REPORTED)) (
    chk 529 (Ok (Cardinal_beq (Direction_rotateOctantClockwise Cd_ALQDS) Cd_NOT_REPORTED)) (
    chk 531 (Ok (Cardinal_beq (Direction_rotateOctantClockwise Cd_UNKNOWN) Cd_NOT_REPORTED)) (
    None)))))).

Definition t_Direction_sectorCardinalDirToVector_Sector : option N :=
    chk 543 (Ok (has_value (Direction_fromSectorString "SW-NW"))) (
    step 544 (deref (Direction_fromSectorString "SW-NW")) (fun v1 => 
    step 545 (deref (Direction_fromSectorString "SW-NW")) (fun v2 => 
    step 546 ((Direction_sectorCardinalDirToVector (fst v1) (snd v2))) (fun v3 => 
    chk 547 (Ok (N.eqb (N.of_nat (List.length v3)) 3%N)) (
    chk 548 (let! v4 := deref (List.nth_error v3 0%nat) in Ok (Cardinal_beq (Direction_cardinal v4 false) Cd_SW)) (
    chk 549 (let! v5 := deref (List.nth_error v3 1%nat) in Ok (Cardinal_beq (Direction_cardinal v5 false) Cd_W)) (
    chk 550 (let! v6 := deref (List.nth_error v3 2%nat) in Ok (Cardinal_beq (Direction_cardinal v6 false) Cd_NW)) (
    None)))))))).

Definition t_Direction_sectorCardinalDirToVector_NonSector : option N :=
    chk 555 (Ok (has_value (Direction_fromCardinalString "N" false false))) (
    step 556 ((Direction_fromDegreesString "///")) (fun v1 => 
    chk 557 (Ok (has_value v1)) (
    step 558 ((Direction_fromDegreesString "VRB")) (fun v2 => 
    chk 559 (Ok (has_value v2)) (
    chk 561 (Ok (has_value (Direction_fromCardinalString "NDV" false false))) (
    chk 563 (Ok (has_value (Direction_fromCardinalString "OHD" true false))) (
    chk 565 (Ok (has_value (Direction_fromCardinalString "ALQDS" true false))) (
    step 567 (deref (Direction_fromCardinalString "N" false false)) (fun v3 => 
    step 567 (deref (Direction_fromCardinalString "NDV" false false)) (fun v4 => 
    step 567 ((Direction_sectorCardinalDirToVector v3 v4)) (fun v5 => 
    chk 568 (Ok (N.eqb (N.of_nat (List.length v5)) 2%N)) (
    chk 569 (let! v6 := deref (List.nth_error v5 0%nat) in Ok (Cardinal_beq (Direction_cardinal v6 false) Cd_N)) (
    chk 570 (let! v7 := deref (List.nth_error v5 1%nat) in Ok (Cardinal_beq (Direction_cardinal v7 false) Cd_NDV)) (
    step 572 (deref (Direction_fromCardinalString "N" false false)) (fun v8 => 
    step 572 (deref v1) (fun v9 => 
    step 572 ((Direction_sectorCardinalDirToVector v8 v9)) (fun v10 => 
    chk 573 (Ok (N.eqb (N.of_nat (List.length v10)) 1%N)) (
    chk 574 (let! v11 := deref (List.nth_error v10 0%nat) in Ok (Cardinal_beq (Direction_cardinal v11 false) Cd_N)) (
    step 576 (deref (Direction_fromCardinalString "N" false false)) (fun v12 => 
    step 576 (deref (Direction_fromCardinalString "OHD" true false)) (fun v13 => 
    step 576 ((Direction_sectorCardinalDirToVector v12 v13)) (fun v14 => 
    chk 577 (Ok (N.eqb (N.of_nat (List.length v14)) 2%N)) (
    chk 578 (let! v15 := deref (List.nth_error v14 0%nat) in Ok (Cardinal_beq (Direction_cardinal v15 false) Cd_N)) (
    chk 579 (let! v16 := deref (List.nth_error v14 1%nat) in Ok (Cardinal_beq (Direction_cardinal v16 false) Cd_OHD)) (
    step 581 (deref (Direction_fromCardinalString "N" false false)) (fun v17 => 
    step 581 (deref (Direction_fromCardinalString "ALQDS" true false)) (fun v18 => 
    step 581 ((Direction_sectorCardinalDirToVector v17 v18)) (fun v19 => 
    chk 582 (Ok (N.eqb (N.of_nat (List.length v19)) 2%N)) (
    chk 583 (let! v20 := deref (List.nth_error v19 0%nat) in Ok (Cardinal_beq (Direction_cardinal v20 false) Cd_N)) (
    chk 584 (let! v21 := deref (List.nth_error v19 1%nat) in Ok (Cardinal_beq (Direction_cardinal v21 false) Cd_ALQDS)) (
    step 586 (deref (Direction_fromCardinalString "OHD" true false)) (fun v22 => 
    step 586 (deref v1) (fun v23 => 
    step 586 ((Direction_sectorCardinalDirToVector v22 v23)) (fun v24 => 
    chk 587 (Ok (N.eqb (N.of_nat (List.length v24)) 1%N)) (
    chk 588 (let! v25 := deref (List.nth_error v24 0%nat) in Ok (Cardinal_beq (Direction_cardinal v25 false) Cd_OHD)) (
    step 590 (deref (Direction_fromCardinalString "ALQDS" true false)) (fun v26 => 
    step 590 (deref v1) (fun v27 => 
    step 590 ((Direction_sectorCardinalDirToVector v26 v27)) (fun v28 => 
    chk 591 (Ok (N.eqb (N.of_nat (List.length v28)) 1%N)) (
    chk 592 (let! v29 := deref (List.nth_error v28 0%nat) in Ok (Cardinal_beq (Direction_cardinal v29 false) Cd_ALQDS)) (
    step 594 (deref v2) (fun v30 => 
    step 594 (deref v1) (fun v31 => 
    step 594 ((Direction_sectorCardinalDirToVector v30 v31)) (fun v32 => 
    chk 595 (Ok (N.eqb (N.of_nat (List.length v32)) 1%N)) (
    chk 596 (let! v33 := deref (List.nth_error v32 0%nat) in Ok (Cardinal_beq (Direction_cardinal v33 false) Cd_VRB)) (
    None)))))))))))))))))))))))))))))))))))))))))))))).

Definition t_Direction_isValueTrue : option N :=
    step 607 ((Direction_fromDegreesString "000")) (fun v1 => 
    chk 608 (Ok (has_value v1)) (
    chk 609 (let! v2 := deref v1 in Ok (Direction_isValue v2)) (
    step 611 ((Direction_fromDegreesString "040")) (fun v3 => 
    chk 612 (Ok (has_value v3)) (
    chk 613 (let! v4 := deref v3 in Ok (Direction_isValue v4)) (
    step 615 ((Direction_fromDegreesString "360")) (fun v5 => 
    chk 616 (Ok (has_value v5)) (
    chk 617 (let! v6 := deref v5 in Ok (Direction_isValue v6)) (
    step 619 ((Direction_fromDegreesString "370")) (fun v7 => 
    chk 620 (Ok (has_value v7)) (
    chk 621 (let! v8 := deref v7 in Ok (Direction_isValue v8)) (
    chk 624 (Ok (has_value (Direction_fromCardinalString "NW" false false))) (
    chk 625 (let! v9 := deref (Direction_fromCardinalString "NW" false false) in Ok (Direction_isValue v9)) (
    None)))))))))))))).

Definition t_Direction_isValueFalse : option N :=
    step 629 ((Direction_fromDegreesString "///")) (fun v1 => 
    chk 630 (Ok (has_value v1)) (
    chk 631 (let! v2 := deref v1 in Ok (negb (Direction_isValue v2))) (
    step 633 ((Direction_fromDegreesString "VRB")) (fun v3 => 
    chk 634 (Ok (has_value v3)) (
    chk 635 (let! v4 := deref v3 in Ok (negb (Direction_isValue v4))) (
    chk 638 (Ok (has_value (Direction_fromCardinalString "NDV" false false))) (
    chk 639 (let! v5 := deref (Direction_fromCardinalString "NDV" false false) in Ok (negb (Direction_isValue v5))) (
    chk 642 (Ok (has_value (Direction_fromCardinalString "ALQDS" true false))) (
    chk 643 (let! v6 := deref (Direction_fromCardinalString "ALQDS" true false) in Ok (negb (Direction_isValue v6))) (
    chk 646 (Ok (has_value (Direction_fromCardinalString "OHD" true false))) (
    chk 647 (let! v7 := deref (Direction_fromCardinalString "OHD" true false) in Ok (negb (Direction_isValue v7))) (
    chk 650 (Ok (has_value (Direction_fromCardinalString "UNKNOWN" false true))) (
    chk 651 (let! v8 := deref (Direction_fromCardinalString "UNKNOWN" false true) in Ok (negb (Direction_isValue v8))) (
    None)))))))))))))).

Definition t_Direction_isReportedTrue : option N :=
    step 655 ((Direction_fromDegreesString "000")) (fun v1 => 
    chk 656 (Ok (has_value v1)) (
    chk 657 (let! v2 := deref v1 in Ok (Direction_isReported v2)) (
    step 659 ((Direction_fromDegreesString "040")) (fun v3 => 
    chk 660 (Ok (has_value v3)) (
    chk 661 (let! v4 := deref v3 in Ok (Direction_isReported v4)) (
    step 663 ((Direction_fromDegreesString "360")) (fun v5 => 
    chk 664 (Ok (has_value v5)) (
    chk 665 (let! v6 := deref v5 in Ok (Direction_isReported v6)) (
    step 667 ((Direction_fromDegreesString "370")) (fun v7 => 
    chk 668 (Ok (has_value v7)) (
    chk 669 (let! v8 := deref v7 in Ok (Direction_isReported v8)) (
    step 671 ((Direction_fromDegreesString "VRB")) (fun v9 => 
    chk 672 (Ok (has_value v9)) (
    chk 673 (let! v10 := deref v9 in Ok (Direction_isReported v10)) (
    chk 676 (Ok (has_value (Direction_fromCardinalString "NDV" false false))) (
    chk 677 (let! v11 := deref (Direction_fromCardinalString "NDV" false false) in Ok (Direction_isReported v11)) (
    chk 680 (Ok (has_value (Direction_fromCardinalString "NW" false false))) (
    chk 681 (let! v12 := deref (Direction_fromCardinalString "NW" false false) in Ok (Direction_isReported v12)) (
    chk 684 (Ok (has_value (Direction_fromCardinalString "ALQDS" true false))) (
    chk 685 (let! v13 := deref (Direction_fromCardinalString "ALQDS" true false) in Ok (Direction_isReported v13)) (
    chk 688 (Ok (has_value (Direction_fromCardinalString "OHD" true false))) (
    chk 689 (let! v14 := deref (Direction_fromCardinalString "OHD" true false) in Ok (Direction_isReported v14)) (
    chk 692 (Ok (has_value (Direction_fromCardinalString "UNKNOWN" false true))) (
    chk 693 (let! v15 := deref (Direction_fromCardinalString "UNKNOWN" false true) in Ok (Direction_isReported v15)) (
    None))))))))))))))))))))))))).

Definition t_Direction_isReportedFalse : option N :=
    step 697 ((Direction_fromDegreesString "///")) (fun v1 => 
    chk 698 (Ok (has_value v1)) (
    chk 699 (let! v2 := deref v1 in Ok (negb (Direction_isReported v2))) (
    None))).

Example tests_direction_pass : failures
  [("Direction_fromCardinalStringN", t_Direction_fromCardinalStringN);
   ("Direction_fromCardinalStringNW", t_Direction_fromCardinalStringNW);
   ("Direction_fromCardinalStringW", t_Direction_fromCardinalStringW);
   ("Direction_fromCardinalStringSW", t_Direction_fromCardinalStringSW);
   ("Direction_fromCardinalStringS", t_Direction_fromCardinalStringS);
   ("Direction_fromCardinalStringSE", t_Direction_fromCardinalStringSE);
   ("Direction_fromCardinalStringE", t_Direction_fromCardinalStringE);
   ("Direction_fromCardinalStringNE", t_Direction_fromCardinalStringNE);
   ("Direction_fromCardinalStringNDV", t_Direction_fromCardinalStringNDV);
   ("Direction_fromCardinalStringOhd", t_Direction_fromCardinalStringOhd);
   ("Direction_fromCardinalStringAlqds", t_Direction_fromCardinalStringAlqds);
   ("Direction_fromCardinalStringUnknown", t_Direction_fromCardinalStringUnknown);
   ("Direction_fromCardinalStringSpecialOther", t_Direction_fromCardinalStringSpecialOther);
   ("Direction_fromCardinalStringOther", t_Direction_fromCardinalStringOther);
   ("Direction_fromDegreesString", t_Direction_fromDegreesString);
   ("Direction_fromDegreesStringVariable", t_Direction_fromDegreesStringVariable);
   ("Direction_fromDegreesStringNotReported", t_Direction_fromDegreesStringNotReported);
   ("Direction_fromDegreesStringLastDigitNonZero", t_Direction_fromDegreesStringLastDigitNonZero);
   ("Direction_fromDegreesStringWrongFormat", t_Direction_fromDegreesStringWrongFormat);
   ("Direction_fromSectorString_N_NE", t_Direction_fromSectorString_N_NE);
   ("Direction_fromSectorString_N_E_S", t_Direction_fromSectorString_N_E_S);
   ("Direction_fromSectorString_N_S", t_Direction_fromSectorString_N_S);
   ("Direction_fromSectorString_N_NE_E_SW_S", t_Direction_fromSectorString_N_NE_E_SW_S);
   ("Direction_fromSectorString_N_W_S", t_Direction_fromSectorString_N_W_S);
   ("Direction_fromSectorString_WrongCardinal", t_Direction_fromSectorString_WrongCardinal);
   ("Direction_isValidCorrectDegrees", t_Direction_isValidCorrectDegrees);
   ("Direction_isValidCorrectCardinal", t_Direction_isValidCorrectCardinal);
   ("Direction_isValidOutOfRange", t_Direction_isValidOutOfRange);
   ("Direction_cardinalNorth", t_Direction_cardinalNorth);
   ("Direction_cardinalNorthEast", t_Direction_cardinalNorthEast);
   ("Direction_cardinalEast", t_Direction_cardinalEast);
   ("Direction_cardinalSouthEast", t_Direction_cardinalSouthEast);
   ("Direction_cardinalSouth", t_Direction_cardinalSouth);
   ("Direction_cardinalSouthWest", t_Direction_cardinalSouthWest);
   ("Direction_cardinalWest", t_Direction_cardinalWest);
   ("Direction_cardinalNorthWest", t_Direction_cardinalNorthWest);
   ("Direction_cardinalTrueDirectionsDisabled", t_Direction_cardinalTrueDirectionsDisabled);
   ("Direction_cardinalTrueDirectionsEnabled", t_Direction_cardinalTrueDirectionsEnabled);
   ("Direction_cardinalInvalid", t_Direction_cardinalInvalid);
   ("Direction_cardinalNotReported", t_Direction_cardinalNotReported);
   ("Direction_cardinalVrb", t_Direction_cardinalVrb);
   ("Direction_cardinalNdv", t_Direction_cardinalNdv);
   ("Direction_cardinalOhd", t_Direction_cardinalOhd);
   ("Direction_cardinalAlqds", t_Direction_cardinalAlqds);
   ("Direction_rotateOctantClockwiseDirections", t_Direction_rotateOctantClockwiseDirections);
   ("Direction_rotateOctantClockwiseTrueDirections", t_Direction_rotateOctantClockwiseTrueDirections);
   ("Direction_rotateOctantClockwiseOther", t_Direction_rotateOctantClockwiseOther);
   ("Direction_sectorCardinalDirToVector_Sector", t_Direction_sectorCardinalDirToVector_Sector);
   ("Direction_sectorCardinalDirToVector_NonSector", t_Direction_sectorCardinalDirToVector_NonSector);
   ("Direction_isValueTrue", t_Direction_isValueTrue);
   ("Direction_isValueFalse", t_Direction_isValueFalse);
   ("Direction_isReportedTrue", t_Direction_isReportedTrue);
   ("Direction_isReportedFalse", t_Direction_isReportedFalse)] = [].
Proof. vm_compute. reflexivity. Qed.
