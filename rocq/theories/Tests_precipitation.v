(** Generated by tools/gen_tests.py from /repo/test/test_precipitation.cpp: the project's own unit tests, run
    against the model. These are tests of the model's fidelity, not properties. *)

From Verif Require Import Prim Regex Float Values Weather Groups1 Groups2 Groups3 Groups4 Parser TestLib.
Local Open Scope string_scope.
Local Open Scope bool_scope.

Definition t_Precipitation_fromRainfallString : option N :=
    step 20 ((Precipitation_fromRainfallString "120.7")) (fun v1 => 
    chk 21 (Ok (has_value v1)) (
    chk 22 (let! v2 := deref v1 in Ok (PrecipUnit_beq (precipUnit v2) MM)) (
    chk 23 (let! v3 := deref v1 in Ok (has_value (precipValue v3))) (
    chk 24 (let! v4 := deref v1 in let! v5 := deref (precipValue v4) in Ok (near v5 (dlit (1207) 10) (dlit (1) 200))) (
    step 26 ((Precipitation_fromRainfallString "061.5")) (fun v6 => 
    chk 27 (Ok (has_value v6)) (
    chk 28 (let! v7 := deref v6 in Ok (PrecipUnit_beq (precipUnit v7) MM)) (
    chk 29 (let! v8 := deref v6 in Ok (has_value (precipValue v8))) (
    chk 30 (let! v9 := deref v6 in let! v10 := deref (precipValue v9) in Ok (near v10 (dlit (123) 2) (dlit (1) 200))) (
    step 32 ((Precipitation_fromRainfallString "60.1")) (fun v11 => 
    chk 33 (Ok (has_value v11)) (
    chk 34 (let! v12 := deref v11 in Ok (PrecipUnit_beq (precipUnit v12) MM)) (
    chk 35 (let! v13 := deref v11 in Ok (has_value (precipValue v13))) (
    chk 36 (let! v14 := deref v11 in let! v15 := deref (precipValue v14) in Ok (near v15 (dlit (601) 10) (dlit (1) 200))) (
    step 38 ((Precipitation_fromRainfallString "04.7")) (fun v16 => 
    chk 39 (Ok (has_value v16)) (
    chk 40 (let! v17 := deref v16 in Ok (PrecipUnit_beq (precipUnit v17) MM)) (
    chk 41 (let! v18 := deref v16 in Ok (has_value (precipValue v18))) (
    chk 42 (let! v19 := deref v16 in let! v20 := deref (precipValue v19) in Ok (near v20 (dlit (47) 10) (dlit (1) 200))) (
    step 44 ((Precipitation_fromRainfallString "000.0")) (fun v21 => 
    chk 45 (Ok (has_value v21)) (
    chk 46 (let! v22 := deref v21 in Ok (PrecipUnit_beq (precipUnit v22) MM)) (
    chk 47 (let! v23 := deref v21 in Ok (has_value (precipValue v23))) (
    chk 48 (let! v24 := deref v21 in let! v25 := deref (precipValue v24) in Ok (near v25 (dlit (0) 1) (dlit (1) 200))) (
    step 50 ((Precipitation_fromRainfallString "00.0")) (fun v26 => 
    chk 51 (Ok (has_value v26)) (
    chk 52 (let! v27 := deref v26 in Ok (PrecipUnit_beq (precipUnit v27) MM)) (
    chk 53 (let! v28 := deref v26 in Ok (has_value (precipValue v28))) (
    chk 54 (let! v29 := deref v26 in let! v30 := deref (precipValue v29) in Ok (near v30 (dlit (0) 1) (dlit (1) 200))) (
    None)))))))))))))))))))))))))))))).

Definition t_Precipitation_fromRainfallStringNotReported : option N :=
    step 58 ((Precipitation_fromRainfallString "///./")) (fun v1 => 
    chk 59 (Ok (has_value v1)) (
    chk 60 (let! v2 := deref v1 in Ok (PrecipUnit_beq (precipUnit v2) MM)) (
    chk 61 (let! v3 := deref v1 in Ok (negb (has_value (precipValue v3)))) (
    step 63 ((Precipitation_fromRainfallString "//./")) (fun v4 => 
    chk 64 (Ok (has_value v4)) (
    chk 65 (let! v5 := deref v4 in Ok (PrecipUnit_beq (precipUnit v5) MM)) (
    chk 66 (let! v6 := deref v4 in Ok (negb (has_value (precipValue v6)))) (
    None)))))))).

Definition t_Precipitation_fromRainfallStringWrongFormat : option N :=
    chk 70 (let! v1 := (Precipitation_fromRainfallString "") in Ok (negb (has_value v1))) (
    chk 71 (let! v2 := (Precipitation_fromRainfallString " ") in Ok (negb (has_value v2))) (
    chk 72 (let! v3 := (Precipitation_fromRainfallString "0040.2") in Ok (negb (has_value v3))) (
    chk 73 (let! v4 := (Precipitation_fromRainfallString "4.2") in Ok (negb (has_value v4))) (
    chk 74 (let! v5 := (Precipitation_fromRainfallString "040") in Ok (negb (has_value v5))) (
    chk 75 (let! v6 := (Precipitation_fromRainfallString "40") in Ok (negb (has_value v6))) (
    chk 76 (let! v7 := (Precipitation_fromRainfallString "040.") in Ok (negb (has_value v7))) (
    chk 77 (let! v8 := (Precipitation_fromRainfallString "40.") in Ok (negb (has_value v8))) (
    chk 78 (let! v9 := (Precipitation_fromRainfallString ".2") in Ok (negb (has_value v9))) (
    chk 79 (let! v10 := (Precipitation_fromRainfallString ".") in Ok (negb (has_value v10))) (
    chk 80 (let! v11 := (Precipitation_fromRainfallString "///.//") in Ok (negb (has_value v11))) (
    chk 81 (let! v12 := (Precipitation_fromRainfallString "/./") in Ok (negb (has_value v12))) (
    chk 82 (let! v13 := (Precipitation_fromRainfallString "///.") in Ok (negb (has_value v13))) (
    chk 83 (let! v14 := (Precipitation_fromRainfallString "040,2") in Ok (negb (has_value v14))) (
    chk 84 (let! v15 := (Precipitation_fromRainfallString "A40.2") in Ok (negb (has_value v15))) (
    chk 85 (let! v16 := (Precipitation_fromRainfallString "040.A") in Ok (negb (has_value v16))) (
    None)))))))))))))))).

Definition t_Precipitation_fromRunwayDepositsValue : option N :=
    step 96 ((Precipitation_fromRunwayDeposits "90")) (fun v1 => 
    chk 97 (Ok (has_value v1)) (
    chk 98 (let! v2 := deref v1 in Ok (PrecipUnit_beq (precipUnit v2) MM)) (
    chk 99 (let! v3 := deref v1 in Ok (has_value (precipValue v3))) (
    chk 100 (let! v4 := deref v1 in let! v5 := deref (precipValue v4) in Ok (near v5 (dlit (90) 1) (dlit (1) 200))) (
    step 102 ((Precipitation_fromRunwayDeposits "01")) (fun v6 => 
    chk 103 (Ok (has_value v6)) (
    chk 104 (let! v7 := deref v6 in Ok (PrecipUnit_beq (precipUnit v7) MM)) (
    chk 105 (let! v8 := deref v6 in Ok (has_value (precipValue v8))) (
    chk 106 (let! v9 := deref v6 in let! v10 := deref (precipValue v9) in Ok (near v10 (dlit (1) 1) (dlit (1) 200))) (
    step 108 ((Precipitation_fromRunwayDeposits "00")) (fun v11 => 
    chk 109 (Ok (has_value v11)) (
    chk 110 (let! v12 := deref v11 in Ok (PrecipUnit_beq (precipUnit v12) MM)) (
    chk 111 (let! v13 := deref v11 in Ok (has_value (precipValue v13))) (
    chk 112 (let! v14 := deref v11 in let! v15 := deref (precipValue v14) in Ok (near v15 (dlit (0) 1) (dlit (1) 200))) (
    None))))))))))))))).

Definition t_Precipitation_fromRunwayDepositsSpecialReserved : option N :=
    chk 116 (let! v1 := (Precipitation_fromRunwayDeposits "91") in Ok (negb (has_value v1))) (
    None).

Definition t_Precipitation_fromRunwayDepositsSpecial10cm : option N :=
    step 120 ((Precipitation_fromRunwayDeposits "92")) (fun v1 => 
    chk 121 (Ok (has_value v1)) (
    chk 122 (let! v2 := deref v1 in Ok (PrecipUnit_beq (precipUnit v2) MM)) (
    chk 123 (let! v3 := deref v1 in Ok (has_value (precipValue v3))) (
    chk 124 (let! v4 := deref v1 in let! v5 := deref (precipValue v4) in Ok (near v5 (dlit (100) 1) (dlit (1) 200))) (
    None))))).

Definition t_Precipitation_fromRunwayDepositsSpecial15cm : option N :=
    step 128 ((Precipitation_fromRunwayDeposits "93")) (fun v1 => 
    chk 129 (Ok (has_value v1)) (
    chk 130 (let! v2 := deref v1 in Ok (PrecipUnit_beq (precipUnit v2) MM)) (
    chk 131 (let! v3 := deref v1 in Ok (has_value (precipValue v3))) (
    chk 132 (let! v4 := deref v1 in let! v5 := deref (precipValue v4) in Ok (near v5 (dlit (150) 1) (dlit (1) 200))) (
    None))))).

Definition t_Precipitation_fromRunwayDepositsSpecial20cm : option N :=
    step 136 ((Precipitation_fromRunwayDeposits "94")) (fun v1 => 
    chk 137 (Ok (has_value v1)) (
    chk 138 (let! v2 := deref v1 in Ok (PrecipUnit_beq (precipUnit v2) MM)) (
    chk 139 (let! v3 := deref v1 in Ok (has_value (precipValue v3))) (
    chk 140 (let! v4 := deref v1 in let! v5 := deref (precipValue v4) in Ok (near v5 (dlit (200) 1) (dlit (1) 200))) (
    None))))).

Definition t_Precipitation_fromRunwayDepositsSpecial25cm : option N :=
    step 144 ((Precipitation_fromRunwayDeposits "95")) (fun v1 => 
    chk 145 (Ok (has_value v1)) (
    chk 146 (let! v2 := deref v1 in Ok (PrecipUnit_beq (precipUnit v2) MM)) (
    chk 147 (let! v3 := deref v1 in Ok (has_value (precipValue v3))) (
    chk 148 (let! v4 := deref v1 in let! v5 := deref (precipValue v4) in Ok (near v5 (dlit (250) 1) (dlit (1) 200))) (
    None))))).

Definition t_Precipitation_fromRunwayDepositsSpecial30cm : option N :=
    step 152 ((Precipitation_fromRunwayDeposits "96")) (fun v1 => 
    chk 153 (Ok (has_value v1)) (
    chk 154 (let! v2 := deref v1 in Ok (PrecipUnit_beq (precipUnit v2) MM)) (
    chk 155 (let! v3 := deref v1 in Ok (has_value (precipValue v3))) (
    chk 156 (let! v4 := deref v1 in let! v5 := deref (precipValue v4) in Ok (near v5 (dlit (300) 1) (dlit (1) 200))) (
    None))))).

Definition t_Precipitation_fromRunwayDepositsSpecial35cm : option N :=
    step 160 ((Precipitation_fromRunwayDeposits "97")) (fun v1 => 
    chk 161 (Ok (has_value v1)) (
    chk 162 (let! v2 := deref v1 in Ok (PrecipUnit_beq (precipUnit v2) MM)) (
    chk 163 (let! v3 := deref v1 in Ok (has_value (precipValue v3))) (
    chk 164 (let! v4 := deref v1 in let! v5 := deref (precipValue v4) in Ok (near v5 (dlit (350) 1) (dlit (1) 200))) (
    None))))).

Definition t_Precipitation_fromRunwayDepositsSpecial40cm : option N :=
    step 168 ((Precipitation_fromRunwayDeposits "98")) (fun v1 => 
    chk 169 (Ok (has_value v1)) (
    chk 170 (let! v2 := deref v1 in Ok (PrecipUnit_beq (precipUnit v2) MM)) (
    chk 171 (let! v3 := deref v1 in Ok (has_value (precipValue v3))) (
    chk 172 (let! v4 := deref v1 in let! v5 := deref (precipValue v4) in Ok (near v5 (dlit (400) 1) (dlit (1) 200))) (
    None))))).

Definition t_Precipitation_fromRunwayDepositsSpecialRunwayNotOperational : option N :=
    step 176 ((Precipitation_fromRunwayDeposits "99")) (fun v1 => 
    chk 177 (Ok (has_value v1)) (
    chk 178 (let! v2 := deref v1 in Ok (PrecipUnit_beq (precipUnit v2) MM)) (
    chk 179 (let! v3 := deref v1 in Ok (negb (has_value (precipValue v3)))) (
    None)))).

Definition t_Precipitation_fromRunwayDepositsNotReported : option N :=
    step 183 ((Precipitation_fromRunwayDeposits "//")) (fun v1 => 
    chk 184 (Ok (has_value v1)) (
    chk 185 (let! v2 := deref v1 in Ok (PrecipUnit_beq (precipUnit v2) MM)) (
    chk 186 (let! v3 := deref v1 in Ok (negb (has_value (precipValue v3)))) (
    None)))).

Definition t_Precipitation_fromRemarkString3digits : option N :=
    step 199 ((Precipitation_fromRemarkString "135" (to32 (dlit 1 100)) INCHES false)) (fun v1 => 
    chk 200 (Ok (has_value v1)) (
    chk 201 (let! v2 := deref v1 in Ok (PrecipUnit_beq (precipUnit v2) INCHES)) (
    chk 202 (let! v3 := deref v1 in Ok (has_value (precipValue v3))) (
    chk 203 (let! v4 := deref v1 in let! v5 := deref (precipValue v4) in Ok (near v5 (dlit (27) 20) (dlit (1) 200))) (
    None))))).

Definition t_Precipitation_fromRemarkString4digits : option N :=
    step 209 ((Precipitation_fromRemarkString "1352" (to32 (dlit 1 100)) INCHES false)) (fun v1 => 
    chk 210 (Ok (has_value v1)) (
    chk 211 (let! v2 := deref v1 in Ok (PrecipUnit_beq (precipUnit v2) INCHES)) (
    chk 212 (let! v3 := deref v1 in Ok (has_value (precipValue v3))) (
    chk 213 (let! v4 := deref v1 in let! v5 := deref (precipValue v4) in Ok (near v5 (dlit (338) 25) (dlit (1) 200))) (
    None))))).

Definition t_Precipitation_fromRemarkStringNotReported : option N :=
    chk 264 (let! v1 := (Precipitation_fromRemarkString "////" (to32 (dlit 1 100)) INCHES false) in Ok (negb (has_value v1))) (
    step 268 ((Precipitation_fromRemarkString "////" (to32 (dlit 1 100)) INCHES true)) (fun v2 => 
    chk 272 (Ok (has_value v2)) (
    chk 273 (let! v3 := deref v2 in Ok (PrecipUnit_beq (precipUnit v3) INCHES)) (
    chk 274 (let! v4 := deref v2 in Ok (negb (has_value (precipValue v4)))) (
    None))))).

Definition t_Precipitation_toUnitSameUnit : option N :=
    step 284 ((Precipitation_fromRainfallString "07.5")) (fun v1 => 
    chk 285 (Ok (has_value v1)) (
    chk 286 (let! v2 := deref v1 in Ok (PrecipUnit_beq (precipUnit v2) MM)) (
    chk 287 (let! v3 := deref v1 in Ok (has_value (Precipitation_toUnit v3 MM))) (
    chk 288 (let! v4 := deref v1 in let! v5 := deref (Precipitation_toUnit v4 MM) in Ok (near v5 (dlit (15) 2) (dlit (1) 200))) (
    step 290 ((Precipitation_fromRemarkString "025" (to32 (dlit 1 10)) INCHES false)) (fun v6 => 
    chk 291 (Ok (has_value v6)) (
    chk 292 (let! v7 := deref v6 in Ok (PrecipUnit_beq (precipUnit v7) INCHES)) (
    chk 293 (let! v8 := deref v6 in Ok (has_value (Precipitation_toUnit v8 INCHES))) (
    chk 294 (let! v9 := deref v6 in let! v10 := deref (Precipitation_toUnit v9 INCHES) in Ok (near v10 (dlit (5) 2) (dlit (1) 200))) (
    None)))))))))).

Definition t_Precipitation_toUnitNotReported : option N :=
    step 298 ((Precipitation_fromRemarkString "///" (to32 (dlit 1 10)) INCHES true)) (fun v1 => 
    chk 302 (Ok (has_value v1)) (
    chk 303 (let! v2 := deref v1 in Ok (negb (has_value (Precipitation_toUnit v2 MM)))) (
    chk 304 (let! v3 := deref v1 in Ok (negb (has_value (Precipitation_toUnit v3 INCHES)))) (
    None)))).

Definition t_Precipitation_toUnitMmToInches : option N :=
    step 308 ((Precipitation_fromRainfallString "50.8")) (fun v1 => 
    chk 309 (Ok (has_value v1)) (
    chk 310 (let! v2 := deref v1 in Ok (PrecipUnit_beq (precipUnit v2) MM)) (
    chk 311 (let! v3 := deref v1 in Ok (has_value (Precipitation_toUnit v3 INCHES))) (
    chk 312 (let! v4 := deref v1 in let! v5 := deref (Precipitation_toUnit v4 INCHES) in Ok (near v5 (dlit (2) 1) (dlit (1) 200))) (
    None))))).

Definition t_Precipitation_toUnitInchesToMm : option N :=
    step 316 ((Precipitation_fromRemarkString "010" (to32 (dlit 1 10)) INCHES false)) (fun v1 => 
    chk 317 (Ok (has_value v1)) (
    chk 318 (let! v2 := deref v1 in Ok (PrecipUnit_beq (precipUnit v2) INCHES)) (
    chk 319 (let! v3 := deref v1 in Ok (has_value (Precipitation_toUnit v3 MM))) (
    chk 320 (let! v4 := deref v1 in let! v5 := deref (Precipitation_toUnit v4 MM) in Ok (near v5 (dlit (127) 5) (dlit (1) 200))) (
    None))))).

Definition t_Precipitation_isReported : option N :=
    step 330 ((Precipitation_fromRainfallString "061.5")) (fun v1 => 
    chk 331 (Ok (has_value v1)) (
    chk 332 (let! v2 := deref v1 in Ok (Precipitation_isReported v2)) (
    step 334 ((Precipitation_fromRainfallString "50.8")) (fun v3 => 
    chk 335 (Ok (has_value v3)) (
    chk 336 (let! v4 := deref v3 in Ok (Precipitation_isReported v4)) (
    step 338 ((Precipitation_fromRainfallString "///./")) (fun v5 => 
    chk 339 (Ok (has_value v5)) (
    chk 340 (let! v6 := deref v5 in Ok (negb (Precipitation_isReported v6))) (
    step 342 ((Precipitation_fromRainfallString "//./")) (fun v7 => 
    chk 343 (Ok (has_value v7)) (
    chk 344 (let! v8 := deref v7 in Ok (negb (Precipitation_isReported v8))) (
    step 346 ((Precipitation_fromRunwayDeposits "01")) (fun v9 => 
    chk 347 (Ok (has_value v9)) (
    chk 348 (let! v10 := deref v9 in Ok (Precipitation_isReported v10)) (
    step 350 ((Precipitation_fromRunwayDeposits "//")) (fun v11 => 
    chk 351 (Ok (has_value v11)) (
    chk 352 (let! v12 := deref v11 in Ok (negb (Precipitation_isReported v12))) (
    step 354 ((Precipitation_fromRemarkString "010" (to32 (dlit 1 10)) INCHES false)) (fun v13 => 
    chk 355 (Ok (has_value v13)) (
    chk 356 (let! v14 := deref v13 in Ok (Precipitation_isReported v14)) (
    step 358 ((Precipitation_fromRemarkString "////" (to32 (dlit 1 100)) INCHES true)) (fun v15 => 
    chk 362 (Ok (has_value v15)) (
    chk 363 (let! v16 := deref v15 in Ok (negb (Precipitation_isReported v16))) (
    None)))))))))))))))))))))))).

Example tests_precipitation_pass : failures
  [("Precipitation_fromRainfallString", t_Precipitation_fromRainfallString);
   ("Precipitation_fromRainfallStringNotReported", t_Precipitation_fromRainfallStringNotReported);
   ("Precipitation_fromRainfallStringWrongFormat", t_Precipitation_fromRainfallStringWrongFormat);
   ("Precipitation_fromRunwayDepositsValue", t_Precipitation_fromRunwayDepositsValue);
   ("Precipitation_fromRunwayDepositsSpecialReserved", t_Precipitation_fromRunwayDepositsSpecialReserved);
   ("Precipitation_fromRunwayDepositsSpecial10cm", t_Precipitation_fromRunwayDepositsSpecial10cm);
   ("Precipitation_fromRunwayDepositsSpecial15cm", t_Precipitation_fromRunwayDepositsSpecial15cm);
   ("Precipitation_fromRunwayDepositsSpecial20cm", t_Precipitation_fromRunwayDepositsSpecial20cm);
   ("Precipitation_fromRunwayDepositsSpecial25cm", t_Precipitation_fromRunwayDepositsSpecial25cm);
   ("Precipitation_fromRunwayDepositsSpecial30cm", t_Precipitation_fromRunwayDepositsSpecial30cm);
   ("Precipitation_fromRunwayDepositsSpecial35cm", t_Precipitation_fromRunwayDepositsSpecial35cm);
   ("Precipitation_fromRunwayDepositsSpecial40cm", t_Precipitation_fromRunwayDepositsSpecial40cm);
   ("Precipitation_fromRunwayDepositsSpecialRunwayNotOperational", t_Precipitation_fromRunwayDepositsSpecialRunwayNotOperational);
   ("Precipitation_fromRunwayDepositsNotReported", t_Precipitation_fromRunwayDepositsNotReported);
   ("Precipitation_fromRemarkString3digits", t_Precipitation_fromRemarkString3digits);
   ("Precipitation_fromRemarkString4digits", t_Precipitation_fromRemarkString4digits);
   ("Precipitation_fromRemarkStringNotReported", t_Precipitation_fromRemarkStringNotReported);
   ("Precipitation_toUnitSameUnit", t_Precipitation_toUnitSameUnit);
   ("Precipitation_toUnitNotReported", t_Precipitation_toUnitNotReported);
   ("Precipitation_toUnitMmToInches", t_Precipitation_toUnitMmToInches);
   ("Precipitation_toUnitInchesToMm", t_Precipitation_toUnitInchesToMm);
   ("Precipitation_isReported", t_Precipitation_isReported)] = [].
Proof. vm_compute. reflexivity. Qed.
