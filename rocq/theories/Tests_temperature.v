(** Generated by tools/gen_tests.py from /repo/test/test_temperature.cpp: the project's own unit tests, run
    against the model. These are tests of the model's fidelity, not properties. *)

From Verif Require Import Prim Regex Float Values Weather Groups1 Groups2 Groups3 Groups4 Parser TestLib.
Local Open Scope string_scope.
Local Open Scope bool_scope.

Definition t_Temperature_fromStringPositive : option N :=
    step 21 ((Temperature_fromString "17")) (fun v1 => 
    chk 22 (Ok (has_value v1)) (
    chk 23 (let! v2 := deref v1 in Ok (has_value (Temperature_temperature v2))) (
    chk 24 (let! v3 := deref v1 in let! v4 := deref (Temperature_temperature v3) in Ok (near v4 (dlit (17) 1) (dlit (1) 20))) (
    chk 25 (let! v5 := deref v1 in Ok (TempUnit_beq Temp_C Temp_C)) (
    chk 26 (let! v6 := deref v1 in Ok (negb (freezing v6))) (
    chk 27 (let! v7 := deref v1 in Ok (negb (precise v7))) (
    None))))))).

Definition t_Temperature_fromStringNegative : option N :=
    step 31 ((Temperature_fromString "M09")) (fun v1 => 
    chk 32 (Ok (has_value v1)) (
    chk 33 (let! v2 := deref v1 in Ok (has_value (Temperature_temperature v2))) (
    chk 34 (let! v3 := deref v1 in let! v4 := deref (Temperature_temperature v3) in Ok (near v4 (dlit (-9) 1) (dlit (1) 20))) (
    chk 35 (let! v5 := deref v1 in Ok (TempUnit_beq Temp_C Temp_C)) (
    chk 36 (let! v6 := deref v1 in Ok (freezing v6)) (
    chk 37 (let! v7 := deref v1 in Ok (negb (precise v7))) (
    None))))))).

Definition t_Temperature_fromStringAboveZero : option N :=
    step 41 ((Temperature_fromString "00")) (fun v1 => 
    chk 42 (Ok (has_value v1)) (
    chk 43 (let! v2 := deref v1 in Ok (has_value (Temperature_temperature v2))) (
    chk 44 (let! v3 := deref v1 in let! v4 := deref (Temperature_temperature v3) in Ok (near v4 (dlit (0) 1) (dlit (1) 20))) (
    chk 45 (let! v5 := deref v1 in Ok (TempUnit_beq Temp_C Temp_C)) (
    chk 46 (let! v6 := deref v1 in Ok (negb (freezing v6))) (
    chk 47 (let! v7 := deref v1 in Ok (negb (precise v7))) (
    None))))))).

Definition t_Temperature_fromStringBelowZero : option N :=
    step 51 ((Temperature_fromString "M00")) (fun v1 => 
    chk 52 (Ok (has_value v1)) (
    chk 53 (let! v2 := deref v1 in Ok (has_value (Temperature_temperature v2))) (
    chk 54 (let! v3 := deref v1 in let! v4 := deref (Temperature_temperature v3) in Ok (near v4 (dlit (0) 1) (dlit (1) 20))) (
    chk 55 (let! v5 := deref v1 in Ok (TempUnit_beq Temp_C Temp_C)) (
    chk 56 (let! v6 := deref v1 in Ok (freezing v6)) (
    chk 57 (let! v7 := deref v1 in Ok (negb (precise v7))) (
    None))))))).

Definition t_Temperature_fromStringNotReported : option N :=
    step 61 ((Temperature_fromString "//")) (fun v1 => 
    chk 62 (Ok (has_value v1)) (
    chk 63 (let! v2 := deref v1 in Ok (negb (has_value (Temperature_temperature v2)))) (
    chk 64 (let! v3 := deref v1 in Ok (negb (freezing v3))) (
    chk 65 (let! v4 := deref v1 in Ok (negb (precise v4))) (
    None))))).

Definition t_Temperature_fromStringWrongFormat : option N :=
    chk 69 (let! v1 := (Temperature_fromString "") in Ok (negb (has_value v1))) (
    chk 70 (let! v2 := (Temperature_fromString "017") in Ok (negb (has_value v2))) (
    chk 71 (let! v3 := (Temperature_fromString "7") in Ok (negb (has_value v3))) (
    chk 72 (let! v4 := (Temperature_fromString "M017") in Ok (negb (has_value v4))) (
    chk 73 (let! v5 := (Temperature_fromString "M7") in Ok (negb (has_value v5))) (
    chk 74 (let! v6 := (Temperature_fromString "T12") in Ok (negb (has_value v6))) (
    chk 75 (let! v7 := (Temperature_fromString "TX10") in Ok (negb (has_value v7))) (
    chk 76 (let! v8 := (Temperature_fromString "M//") in Ok (negb (has_value v8))) (
    chk 77 (let! v9 := (Temperature_fromString "/") in Ok (negb (has_value v9))) (
    chk 78 (let! v10 := (Temperature_fromString "///") in Ok (negb (has_value v10))) (
    None)))))))))).

Definition t_Temperature_fromRemarkStringPositive : option N :=
    step 88 ((Temperature_fromRemarkString "0147")) (fun v1 => 
    chk 89 (Ok (has_value v1)) (
    chk 90 (let! v2 := deref v1 in Ok (has_value (Temperature_temperature v2))) (
    chk 91 (let! v3 := deref v1 in let! v4 := deref (Temperature_temperature v3) in Ok (near v4 (dlit (147) 10) (dlit (1) 20))) (
    chk 92 (let! v5 := deref v1 in Ok (TempUnit_beq Temp_C Temp_C)) (
    chk 93 (let! v6 := deref v1 in Ok (negb (freezing v6))) (
    chk 94 (let! v7 := deref v1 in Ok (precise v7)) (
    None))))))).

Definition t_Temperature_fromRemarkStringNegative : option N :=
    step 98 ((Temperature_fromRemarkString "1274")) (fun v1 => 
    chk 99 (Ok (has_value v1)) (
    chk 100 (let! v2 := deref v1 in Ok (has_value (Temperature_temperature v2))) (
    chk 101 (let! v3 := deref v1 in let! v4 := deref (Temperature_temperature v3) in Ok (near v4 (dlit (-137) 5) (dlit (1) 20))) (
    chk 102 (let! v5 := deref v1 in Ok (TempUnit_beq Temp_C Temp_C)) (
    chk 103 (let! v6 := deref v1 in Ok (freezing v6)) (
    chk 104 (let! v7 := deref v1 in Ok (precise v7)) (
    None))))))).

Definition t_Temperature_fromRemarkStringWrongFormat : option N :=
    chk 108 (let! v1 := (Temperature_fromString "") in Ok (negb (has_value v1))) (
    chk 109 (let! v2 := (Temperature_fromString "2123") in Ok (negb (has_value v2))) (
    chk 110 (let! v3 := (Temperature_fromString "3123") in Ok (negb (has_value v3))) (
    chk 111 (let! v4 := (Temperature_fromString "4123") in Ok (negb (has_value v4))) (
    chk 112 (let! v5 := (Temperature_fromString "5123") in Ok (negb (has_value v5))) (
    chk 113 (let! v6 := (Temperature_fromString "6123") in Ok (negb (has_value v6))) (
    chk 114 (let! v7 := (Temperature_fromString "7123") in Ok (negb (has_value v7))) (
    chk 115 (let! v8 := (Temperature_fromString "8123") in Ok (negb (has_value v8))) (
    chk 116 (let! v9 := (Temperature_fromString "M123") in Ok (negb (has_value v9))) (
    chk 117 (let! v10 := (Temperature_fromString "012") in Ok (negb (has_value v10))) (
    chk 118 (let! v11 := (Temperature_fromString "00123") in Ok (negb (has_value v11))) (
    chk 119 (let! v12 := (Temperature_fromString "0///") in Ok (negb (has_value v12))) (
    chk 120 (let! v13 := (Temperature_fromString "M///") in Ok (negb (has_value v13))) (
    chk 121 (let! v14 := (Temperature_fromString "////") in Ok (negb (has_value v14))) (
    None)))))))))))))).

Definition t_Temperature_toUnitSameUnit : option N :=
    step 132 ((Temperature_fromString "07")) (fun v1 => 
    chk 133 (Ok (has_value v1)) (
    chk 134 (let! v2 := deref v1 in Ok (has_value (Temperature_toUnit v2 Temp_C))) (
    chk 135 (let! v3 := deref v1 in let! v4 := deref (Temperature_toUnit v3 Temp_C) in Ok (near v4 (dlit (7) 1) (dlit (1) 20))) (
    None)))).

Definition t_Temperature_toUnitCtoF : option N :=
    step 139 ((Temperature_fromString "00")) (fun v1 => 
    chk 140 (Ok (has_value v1)) (
    chk 141 (let! v2 := deref v1 in Ok (has_value (Temperature_toUnit v2 Temp_F))) (
    chk 142 (let! v3 := deref v1 in let! v4 := deref (Temperature_toUnit v3 Temp_F) in Ok (near v4 (dlit (32) 1) (dlit (1) 20))) (
    step 144 ((Temperature_fromString "M00")) (fun v5 => 
    chk 145 (Ok (has_value v5)) (
    chk 146 (let! v6 := deref v5 in Ok (has_value (Temperature_toUnit v6 Temp_F))) (
    chk 147 (let! v7 := deref v5 in let! v8 := deref (Temperature_toUnit v7 Temp_F) in Ok (near v8 (dlit (32) 1) (dlit (1) 20))) (
    step 149 ((Temperature_fromString "M40")) (fun v9 => 
    chk 150 (Ok (has_value v9)) (
    chk 151 (let! v10 := deref v9 in Ok (has_value (Temperature_toUnit v10 Temp_F))) (
    chk 152 (let! v11 := deref v9 in let! v12 := deref (Temperature_toUnit v11 Temp_F) in Ok (near v12 (dlit (-40) 1) (dlit (1) 20))) (
    None)))))))))))).

Definition t_Temperature_toUnitNotReported : option N :=
    step 156 ((Temperature_fromString "//")) (fun v1 => 
    chk 157 (Ok (has_value v1)) (
    chk 158 (let! v2 := deref v1 in Ok (negb (has_value (Temperature_temperature v2)))) (
    chk 159 (let! v3 := deref v1 in Ok (negb (has_value (Temperature_toUnit v3 Temp_C)))) (
    chk 160 (let! v4 := deref v1 in Ok (negb (has_value (Temperature_toUnit v4 Temp_F)))) (
    None))))).

Definition t_Temperature_relativeHumidity : option N :=
    step 170 ((Temperature_fromString "35")) (fun v1 => 
    chk 171 (Ok (has_value v1)) (
    chk 172 (let! v2 := deref v1 in Ok (has_value (Temperature_temperature v2))) (
    chk 173 (let! v3 := deref v1 in let! v4 := deref (Temperature_temperature v3) in Ok (near v4 (dlit (35) 1) (dlit (1) 20))) (
    step 175 ((Temperature_fromString "05")) (fun v5 => 
    chk 176 (Ok (has_value v5)) (
    chk 177 (let! v6 := deref v5 in Ok (has_value (Temperature_temperature v6))) (
    chk 178 (let! v7 := deref v5 in let! v8 := deref (Temperature_temperature v7) in Ok (near v8 (dlit (5) 1) (dlit (1) 20))) (
    step 180 ((Temperature_fromString "17")) (fun v9 => 
    chk 181 (Ok (has_value v9)) (
    chk 182 (let! v10 := deref v9 in Ok (has_value (Temperature_temperature v10))) (
    chk 183 (let! v11 := deref v9 in let! v12 := deref (Temperature_temperature v11) in Ok (near v12 (dlit (17) 1) (dlit (1) 20))) (
    step 185 ((Temperature_fromString "08")) (fun v13 => 
    chk 186 (Ok (has_value v13)) (
    chk 187 (let! v14 := deref v13 in Ok (has_value (Temperature_temperature v14))) (
    chk 188 (let! v15 := deref v13 in let! v16 := deref (Temperature_temperature v15) in Ok (near v16 (dlit (8) 1) (dlit (1) 20))) (
    step 190 ((Temperature_fromRemarkString "0225")) (fun v17 => 
    chk 191 (Ok (has_value v17)) (
    chk 192 (let! v18 := deref v17 in Ok (has_value (Temperature_temperature v18))) (
    chk 193 (let! v19 := deref v17 in let! v20 := deref (Temperature_temperature v19) in Ok (near v20 (dlit (45) 2) (dlit (1) 20))) (
    step 195 ((Temperature_fromString "M05")) (fun v21 => 
    chk 196 (Ok (has_value v21)) (
    chk 197 (let! v22 := deref v21 in Ok (has_value (Temperature_temperature v22))) (
    chk 198 (let! v23 := deref v21 in let! v24 := deref (Temperature_temperature v23) in Ok (near v24 (dlit (-5) 1) (dlit (1) 20))) (
    step 200 ((Temperature_fromString "00")) (fun v25 => 
    chk 201 (Ok (has_value v25)) (
    chk 202 (let! v26 := deref v25 in Ok (has_value (Temperature_temperature v26))) (
    chk 203 (let! v27 := deref v25 in let! v28 := deref (Temperature_temperature v27) in Ok (near v28 (dlit (0) 1) (dlit (1) 20))) (
    step 205 ((Temperature_fromString "M00")) (fun v29 => 
    chk 206 (Ok (has_value v29)) (
    chk 207 (let! v30 := deref v29 in Ok (has_value (Temperature_temperature v30))) (
    chk 208 (let! v31 := deref v29 in let! v32 := deref (Temperature_temperature v31) in Ok (near v32 (dlit (0) 1) (dlit (1) 20))) (
    None)))))))))))))))))))))))))))))))).

Definition t_Temperature_relativeHumidity100percent : option N :=
    step 236 ((Temperature_fromString "25")) (fun v1 => 
    chk 237 (Ok (has_value v1)) (
    chk 238 (let! v2 := deref v1 in Ok (has_value (Temperature_temperature v2))) (
    chk 239 (let! v3 := deref v1 in let! v4 := deref (Temperature_temperature v3) in Ok (near v4 (dlit (25) 1) (dlit (1) 20))) (
    step 241 ((Temperature_fromRemarkString "0251")) (fun v5 => 
    chk 242 (Ok (has_value v5)) (
    chk 243 (let! v6 := deref v5 in Ok (has_value (Temperature_temperature v6))) (
    chk 244 (let! v7 := deref v5 in let! v8 := deref (Temperature_temperature v7) in Ok (near v8 (dlit (251) 10) (dlit (1) 20))) (
    step 246 ((Temperature_fromString "26")) (fun v9 => 
    chk 247 (Ok (has_value v9)) (
    chk 248 (let! v10 := deref v9 in Ok (has_value (Temperature_temperature v10))) (
    chk 249 (let! v11 := deref v9 in let! v12 := deref (Temperature_temperature v11) in Ok (near v12 (dlit (26) 1) (dlit (1) 20))) (
    step 251 ((Temperature_fromString "00")) (fun v13 => 
    chk 252 (Ok (has_value v13)) (
    chk 253 (let! v14 := deref v13 in Ok (has_value (Temperature_temperature v14))) (
    chk 254 (let! v15 := deref v13 in let! v16 := deref (Temperature_temperature v15) in Ok (near v16 (dlit (0) 1) (dlit (1) 20))) (
    step 256 ((Temperature_fromString "M00")) (fun v17 => 
    chk 257 (Ok (has_value v17)) (
    chk 258 (let! v18 := deref v17 in Ok (has_value (Temperature_temperature v18))) (
    chk 259 (let! v19 := deref v17 in let! v20 := deref (Temperature_temperature v19) in Ok (near v20 (dlit (0) 1) (dlit (1) 20))) (
    None)))))))))))))))))))).

Definition t_Temperature_relativeHumidityNotDefined : option N :=
    step 287 ((Temperature_fromString "17")) (fun v1 => 
    chk 288 (Ok (has_value v1)) (
    chk 289 (let! v2 := deref v1 in Ok (has_value (Temperature_temperature v2))) (
    chk 290 (let! v3 := deref v1 in let! v4 := deref (Temperature_temperature v3) in Ok (near v4 (dlit (17) 1) (dlit (1) 20))) (
    step 292 ((Temperature_fromString "//")) (fun v5 => 
    chk 293 (Ok (has_value v5)) (
    chk 294 (let! v6 := deref v5 in Ok (negb (has_value (Temperature_temperature v6)))) (
    None))))))).

Definition t_Temperature_heatIndex : option N :=
    step 301 ((Temperature_fromString "42")) (fun v1 => 
    chk 302 (Ok (has_value v1)) (
    chk 303 (let! v2 := deref v1 in Ok (has_value (Temperature_temperature v2))) (
    chk 304 (let! v3 := deref v1 in let! v4 := deref (Temperature_temperature v3) in Ok (near v4 (dlit (42) 1) (dlit (1) 20))) (
    chk 305 (let! v5 := deref v1 in Ok (TempUnit_beq Temp_C Temp_C)) (
    step 307 ((Temperature_fromString "27")) (fun v6 => 
    chk 308 (Ok (has_value v6)) (
    chk 309 (let! v7 := deref v6 in Ok (has_value (Temperature_temperature v7))) (
    chk 310 (let! v8 := deref v6 in let! v9 := deref (Temperature_temperature v8) in Ok (near v9 (dlit (27) 1) (dlit (1) 20))) (
    chk 311 (let! v10 := deref v6 in Ok (TempUnit_beq Temp_C Temp_C)) (
    step 313 ((Temperature_fromRemarkString "0335")) (fun v11 => 
    chk 314 (Ok (has_value v11)) (
    chk 315 (let! v12 := deref v11 in Ok (has_value (Temperature_temperature v12))) (
    chk 316 (let! v13 := deref v11 in let! v14 := deref (Temperature_temperature v13) in Ok (near v14 (dlit (67) 2) (dlit (1) 20))) (
    chk 317 (let! v15 := deref v11 in Ok (TempUnit_beq Temp_C Temp_C)) (
    None))))))))))))))).

Definition t_Temperature_heatIndexNotDefined : option N :=
    step 346 ((Temperature_fromRemarkString "0269")) (fun v1 => 
    chk 347 (Ok (has_value v1)) (
    chk 348 (let! v2 := deref v1 in Ok (has_value (Temperature_temperature v2))) (
    chk 349 (let! v3 := deref v1 in let! v4 := deref (Temperature_temperature v3) in Ok (near v4 (dlit (269) 10) (dlit (1) 20))) (
    step 351 ((Temperature_fromString "27")) (fun v5 => 
    chk 352 (Ok (has_value v5)) (
    chk 353 (let! v6 := deref v5 in Ok (has_value (Temperature_temperature v6))) (
    chk 354 (let! v7 := deref v5 in let! v8 := deref (Temperature_temperature v7) in Ok (near v8 (dlit (27) 1) (dlit (1) 20))) (
    step 356 ((Temperature_fromString "00")) (fun v9 => 
    chk 357 (Ok (has_value v9)) (
    chk 358 (let! v10 := deref v9 in Ok (has_value (Temperature_temperature v10))) (
    chk 359 (let! v11 := deref v9 in let! v12 := deref (Temperature_temperature v11) in Ok (near v12 (dlit (0) 1) (dlit (1) 20))) (
    step 361 ((Temperature_fromString "M00")) (fun v13 => 
    chk 362 (Ok (has_value v13)) (
    chk 363 (let! v14 := deref v13 in Ok (has_value (Temperature_temperature v14))) (
    chk 364 (let! v15 := deref v13 in let! v16 := deref (Temperature_temperature v15) in Ok (near v16 (dlit (0) 1) (dlit (1) 20))) (
    step 366 ((Temperature_fromRemarkString "1001")) (fun v17 => 
    chk 367 (Ok (has_value v17)) (
    chk 368 (let! v18 := deref v17 in Ok (has_value (Temperature_temperature v18))) (
    chk 369 (let! v19 := deref v17 in let! v20 := deref (Temperature_temperature v19) in Ok (near v20 (dlit (-1) 10) (dlit (1) 20))) (
    step 371 ((Temperature_fromString "//")) (fun v21 => 
    chk 372 (Ok (has_value v21)) (
    chk 373 (let! v22 := deref v21 in Ok (negb (has_value (Temperature_temperature v22)))) (
    None))))))))))))))))))))))).

Definition t_Temperature_heatIndexTempDewPoint : option N :=
    step 390 ((Temperature_fromString "30")) (fun v1 => 
    chk 391 (Ok (has_value v1)) (
    chk 392 (let! v2 := deref v1 in Ok (has_value (Temperature_temperature v2))) (
    chk 393 (let! v3 := deref v1 in let! v4 := deref (Temperature_temperature v3) in Ok (near v4 (dlit (30) 1) (dlit (1) 20))) (
    chk 394 (let! v5 := deref v1 in Ok (TempUnit_beq Temp_C Temp_C)) (
    step 396 ((Temperature_fromString "33")) (fun v6 => 
    chk 397 (Ok (has_value v6)) (
    chk 398 (let! v7 := deref v6 in Ok (has_value (Temperature_temperature v7))) (
    chk 399 (let! v8 := deref v6 in let! v9 := deref (Temperature_temperature v8) in Ok (near v9 (dlit (33) 1) (dlit (1) 20))) (
    chk 400 (let! v10 := deref v6 in Ok (TempUnit_beq Temp_C Temp_C)) (
    None)))))))))).

Definition t_Temperature_windChill : option N :=
    step 418 ((Temperature_fromString "10")) (fun v1 => 
    chk 419 (Ok (has_value v1)) (
    chk 420 (let! v2 := deref v1 in Ok (has_value (Temperature_temperature v2))) (
    chk 421 (let! v3 := deref v1 in let! v4 := deref (Temperature_temperature v3) in Ok (near v4 (dlit (10) 1) (dlit (1) 20))) (
    chk 422 (let! v5 := deref v1 in Ok (TempUnit_beq Temp_C Temp_C)) (
    step 424 ((Temperature_fromRemarkString "1145")) (fun v6 => 
    chk 425 (Ok (has_value v6)) (
    chk 426 (let! v7 := deref v6 in Ok (has_value (Temperature_temperature v7))) (
    chk 427 (let! v8 := deref v6 in let! v9 := deref (Temperature_temperature v8) in Ok (near v9 (dlit (-29) 2) (dlit (1) 20))) (
    chk 428 (let! v10 := deref v6 in Ok (TempUnit_beq Temp_C Temp_C)) (
    step 430 ((Temperature_fromString "00")) (fun v11 => 
    chk 431 (Ok (has_value v11)) (
    chk 432 (let! v12 := deref v11 in Ok (has_value (Temperature_temperature v12))) (
    chk 433 (let! v13 := deref v11 in let! v14 := deref (Temperature_temperature v13) in Ok (near v14 (dlit (0) 1) (dlit (1) 20))) (
    chk 434 (let! v15 := deref v11 in Ok (TempUnit_beq Temp_C Temp_C)) (
    step 436 ((Temperature_fromString "M00")) (fun v16 => 
    chk 437 (Ok (has_value v16)) (
    chk 438 (let! v17 := deref v16 in Ok (has_value (Temperature_temperature v17))) (
    chk 439 (let! v18 := deref v16 in let! v19 := deref (Temperature_temperature v18) in Ok (near v19 (dlit (0) 1) (dlit (1) 20))) (
    chk 440 (let! v20 := deref v16 in Ok (TempUnit_beq Temp_C Temp_C)) (
    step 442 ((Speed_fromString "05" KILOMETERS_PER_HOUR)) (fun v21 => 
    chk 443 (Ok (has_value v21)) (
    chk 444 (let! v22 := deref v21 in Ok (has_value (speedValue v22))) (
    chk 445 (let! v23 := deref v21 in let! v24 := deref (speedValue v23) in Ok (N.eqb v24 5%N)) (
    step 447 ((Speed_fromString "15" KILOMETERS_PER_HOUR)) (fun v25 => 
    chk 448 (Ok (has_value v25)) (
    chk 449 (let! v26 := deref v25 in Ok (has_value (speedValue v26))) (
    chk 450 (let! v27 := deref v25 in let! v28 := deref (speedValue v27) in Ok (N.eqb v28 15%N)) (
    step 452 ((Speed_fromString "35" KILOMETERS_PER_HOUR)) (fun v29 => 
    chk 453 (Ok (has_value v29)) (
    chk 454 (let! v30 := deref v29 in Ok (has_value (speedValue v30))) (
    chk 455 (let! v31 := deref v29 in let! v32 := deref (speedValue v31) in Ok (N.eqb v32 35%N)) (
    None)))))))))))))))))))))))))))))))).

Definition t_Temperature_windChillNotDefined : option N :=
    step 484 ((Temperature_fromRemarkString "0101")) (fun v1 => 
    chk 485 (Ok (has_value v1)) (
    chk 486 (let! v2 := deref v1 in Ok (has_value (Temperature_temperature v2))) (
    chk 487 (let! v3 := deref v1 in let! v4 := deref (Temperature_temperature v3) in Ok (near v4 (dlit (101) 10) (dlit (1) 20))) (
    chk 488 (let! v5 := deref v1 in Ok (TempUnit_beq Temp_C Temp_C)) (
    step 490 ((Temperature_fromString "09")) (fun v6 => 
    chk 491 (Ok (has_value v6)) (
    chk 492 (let! v7 := deref v6 in Ok (has_value (Temperature_temperature v7))) (
    chk 493 (let! v8 := deref v6 in let! v9 := deref (Temperature_temperature v8) in Ok (near v9 (dlit (9) 1) (dlit (1) 20))) (
    chk 494 (let! v10 := deref v6 in Ok (TempUnit_beq Temp_C Temp_C)) (
    step 496 ((Temperature_fromString "//")) (fun v11 => 
    chk 497 (Ok (has_value v11)) (
    chk 498 (let! v12 := deref v11 in Ok (negb (Temperature_isReported v12))) (
    step 500 ((Speed_fromString "04" KILOMETERS_PER_HOUR)) (fun v13 => 
    chk 501 (Ok (has_value v13)) (
    chk 502 (let! v14 := deref v13 in Ok (has_value (speedValue v14))) (
    chk 503 (let! v15 := deref v13 in let! v16 := deref (speedValue v15) in Ok (N.eqb v16 4%N)) (
    chk 504 (let! v17 := deref v13 in Ok (SpeedUnit_beq (speedUnit v17) KILOMETERS_PER_HOUR)) (
    step 506 ((Speed_fromString "05" KILOMETERS_PER_HOUR)) (fun v18 => 
    chk 507 (Ok (has_value v18)) (
    chk 508 (let! v19 := deref v18 in Ok (has_value (speedValue v19))) (
    chk 509 (let! v20 := deref v18 in let! v21 := deref (speedValue v20) in Ok (N.eqb v21 5%N)) (
    chk 510 (let! v22 := deref v18 in Ok (SpeedUnit_beq (speedUnit v22) KILOMETERS_PER_HOUR)) (
    step 512 ((Speed_fromString "//" KILOMETERS_PER_HOUR)) (fun v23 => 
    chk 513 (Ok (has_value v23)) (
    chk 514 (let! v24 := deref v23 in Ok (negb (Speed_isReported v24))) (
    None)))))))))))))))))))))))))).

Definition t_Temperature_isReported : option N :=
    step 535 ((Temperature_fromString "17")) (fun v1 => 
    chk 536 (Ok (has_value v1)) (
    chk 537 (let! v2 := deref v1 in Ok (Temperature_isReported v2)) (
    step 539 ((Temperature_fromString "//")) (fun v3 => 
    chk 540 (Ok (has_value v3)) (
    chk 541 (let! v4 := deref v3 in Ok (negb (Temperature_isReported v4))) (
    None)))))).

Example tests_temperature_pass : failures
  [("Temperature_fromStringPositive", t_Temperature_fromStringPositive);
   ("Temperature_fromStringNegative", t_Temperature_fromStringNegative);
   ("Temperature_fromStringAboveZero", t_Temperature_fromStringAboveZero);
   ("Temperature_fromStringBelowZero", t_Temperature_fromStringBelowZero);
   ("Temperature_fromStringNotReported", t_Temperature_fromStringNotReported);
   ("Temperature_fromStringWrongFormat", t_Temperature_fromStringWrongFormat);
   ("Temperature_fromRemarkStringPositive", t_Temperature_fromRemarkStringPositive);
   ("Temperature_fromRemarkStringNegative", t_Temperature_fromRemarkStringNegative);
   ("Temperature_fromRemarkStringWrongFormat", t_Temperature_fromRemarkStringWrongFormat);
   ("Temperature_toUnitSameUnit", t_Temperature_toUnitSameUnit);
   ("Temperature_toUnitCtoF", t_Temperature_toUnitCtoF);
   ("Temperature_toUnitNotReported", t_Temperature_toUnitNotReported);
   ("Temperature_relativeHumidity", t_Temperature_relativeHumidity);
   ("Temperature_relativeHumidity100percent", t_Temperature_relativeHumidity100percent);
   ("Temperature_relativeHumidityNotDefined", t_Temperature_relativeHumidityNotDefined);
   ("Temperature_heatIndex", t_Temperature_heatIndex);
   ("Temperature_heatIndexNotDefined", t_Temperature_heatIndexNotDefined);
   ("Temperature_heatIndexTempDewPoint", t_Temperature_heatIndexTempDewPoint);
   ("Temperature_windChill", t_Temperature_windChill);
   ("Temperature_windChillNotDefined", t_Temperature_windChillNotDefined);
   ("Temperature_isReported", t_Temperature_isReported)] = [].
Proof. vm_compute. reflexivity. Qed.
