(** Generated by tools/gen_tests.py from /repo/test/test_speed.cpp: the project's own unit tests, run
    against the model. These are tests of the model's fidelity, not properties. *)

From Verif Require Import Prim Regex Float Values Weather Groups1 Groups2 Groups3 Groups4 Parser TestLib.
Local Open Scope string_scope.
Local Open Scope bool_scope.

Definition t_Speed_unitToStringKnots : option N :=
    chk 21 (Ok (has_value (Speed_unitFromString "KT"))) (
    chk 22 (let! v1 := deref (Speed_unitFromString "KT") in Ok (SpeedUnit_beq v1 KNOTS)) (
    None)).

Definition t_Speed_unitToStringMetersPerSecond : option N :=
    chk 27 (Ok (has_value (Speed_unitFromString "MPS"))) (
    chk 28 (let! v1 := deref (Speed_unitFromString "MPS") in Ok (SpeedUnit_beq v1 METERS_PER_SECOND)) (
    None)).

Definition t_Speed_unitToStringKilometersPerHour : option N :=
    chk 33 (Ok (has_value (Speed_unitFromString "KMH"))) (
    chk 34 (let! v1 := deref (Speed_unitFromString "KMH") in Ok (SpeedUnit_beq v1 KILOMETERS_PER_HOUR)) (
    None)).

Definition t_Speed_unitToStringWrongUnit : option N :=
    chk 38 (Ok (negb (has_value (Speed_unitFromString "")))) (
    chk 39 (Ok (negb (has_value (Speed_unitFromString "MPH")))) (
    chk 40 (Ok (negb (has_value (Speed_unitFromString "123")))) (
    chk 41 (Ok (negb (has_value (Speed_unitFromString "///")))) (
    chk 42 (Ok (negb (has_value (Speed_unitFromString "AA")))) (
    None))))).

Definition t_Speed_toUnitSameUnit : option N :=
    step 101 ((Speed_fromString "10" KNOTS)) (fun v1 => 
    chk 103 (Ok (has_value v1)) (
    chk 104 (let! v2 := deref v1 in Ok (has_value (Speed_toUnit v2 KNOTS))) (
    chk 105 (let! v3 := deref v1 in let! v4 := deref (Speed_toUnit v3 KNOTS) in Ok (near v4 (dlit (10) 1) (dlit (1) 20))) (
    step 107 ((Speed_fromString "10" METERS_PER_SECOND)) (fun v5 => 
    chk 109 (Ok (has_value v5)) (
    chk 110 (let! v6 := deref v5 in Ok (has_value (Speed_toUnit v6 METERS_PER_SECOND))) (
    chk 111 (let! v7 := deref v5 in let! v8 := deref (Speed_toUnit v7 METERS_PER_SECOND) in Ok (near v8 (dlit (10) 1) (dlit (1) 20))) (
    step 113 ((Speed_fromString "10" KILOMETERS_PER_HOUR)) (fun v9 => 
    chk 115 (Ok (has_value v9)) (
    chk 116 (let! v10 := deref v9 in Ok (has_value (Speed_toUnit v10 KILOMETERS_PER_HOUR))) (
    chk 117 (let! v11 := deref v9 in let! v12 := deref (Speed_toUnit v11 KILOMETERS_PER_HOUR) in Ok (near v12 (dlit (10) 1) (dlit (1) 20))) (
    step 119 ((Speed_fromString "10" MILES_PER_HOUR)) (fun v13 => 
    chk 121 (Ok (has_value v13)) (
    chk 122 (let! v14 := deref v13 in Ok (has_value (Speed_toUnit v14 MILES_PER_HOUR))) (
    chk 123 (let! v15 := deref v13 in let! v16 := deref (Speed_toUnit v15 MILES_PER_HOUR) in Ok (near v16 (dlit (10) 1) (dlit (1) 20))) (
    None)))))))))))))))).

Definition t_Speed_toUnitNotReported : option N :=
    chk 127 (Ok (negb (has_value (Speed_toUnit Speed_default KNOTS)))) (
    chk 128 (Ok (negb (has_value (Speed_toUnit Speed_default METERS_PER_SECOND)))) (
    chk 129 (Ok (negb (has_value (Speed_toUnit Speed_default KILOMETERS_PER_HOUR)))) (
    chk 130 (Ok (negb (has_value (Speed_toUnit Speed_default MILES_PER_HOUR)))) (
    None)))).

Definition t_Speed_toUnitKnotsToMps : option N :=
    step 134 ((Speed_fromString "10" KNOTS)) (fun v1 => 
    chk 135 (Ok (has_value v1)) (
    step 136 (deref v1) (fun v2 => 
    chk 137 (Ok (has_value (Speed_toUnit v2 METERS_PER_SECOND))) (
    chk 138 (let! v3 := deref (Speed_toUnit v2 METERS_PER_SECOND) in Ok (near v3 (dlit (51) 10) (dlit (1) 20))) (
    None))))).

Definition t_Speed_toUnitKnotsToKmh : option N :=
    step 142 ((Speed_fromString "10" KNOTS)) (fun v1 => 
    chk 143 (Ok (has_value v1)) (
    step 144 (deref v1) (fun v2 => 
    chk 145 (Ok (has_value (Speed_toUnit v2 KILOMETERS_PER_HOUR))) (
    chk 146 (let! v3 := deref (Speed_toUnit v2 KILOMETERS_PER_HOUR) in Ok (near v3 (dlit (37) 2) (dlit (1) 20))) (
    None))))).

Definition t_Speed_toUnitKnotsToMph : option N :=
    step 150 ((Speed_fromString "10" KNOTS)) (fun v1 => 
    chk 151 (Ok (has_value v1)) (
    step 152 (deref v1) (fun v2 => 
    chk 153 (Ok (has_value (Speed_toUnit v2 MILES_PER_HOUR))) (
    chk 154 (let! v3 := deref (Speed_toUnit v2 MILES_PER_HOUR) in Ok (near v3 (dlit (23) 2) (dlit (1) 20))) (
    None))))).

Definition t_Speed_toUnitMpsToKnots : option N :=
    step 158 ((Speed_fromString "10" METERS_PER_SECOND)) (fun v1 => 
    chk 159 (Ok (has_value v1)) (
    step 160 (deref v1) (fun v2 => 
    chk 161 (Ok (has_value (Speed_toUnit v2 KNOTS))) (
    chk 162 (let! v3 := deref (Speed_toUnit v2 KNOTS) in Ok (near v3 (dlit (97) 5) (dlit (1) 20))) (
    None))))).

Definition t_Speed_toUnitMpsToKmh : option N :=
    step 166 ((Speed_fromString "10" METERS_PER_SECOND)) (fun v1 => 
    chk 167 (Ok (has_value v1)) (
    step 168 (deref v1) (fun v2 => 
    chk 169 (Ok (has_value (Speed_toUnit v2 KILOMETERS_PER_HOUR))) (
    chk 170 (let! v3 := deref (Speed_toUnit v2 KILOMETERS_PER_HOUR) in Ok (near v3 (dlit (36) 1) (dlit (1) 20))) (
    None))))).

Definition t_Speed_toUnitMpsToMph : option N :=
    step 174 ((Speed_fromString "10" METERS_PER_SECOND)) (fun v1 => 
    chk 175 (Ok (has_value v1)) (
    step 176 (deref v1) (fun v2 => 
    chk 177 (Ok (has_value (Speed_toUnit v2 MILES_PER_HOUR))) (
    chk 178 (let! v3 := deref (Speed_toUnit v2 MILES_PER_HOUR) in Ok (near v3 (dlit (112) 5) (dlit (1) 20))) (
    None))))).

Definition t_Speed_toUnitKmhToKnots : option N :=
    step 182 ((Speed_fromString "10" KILOMETERS_PER_HOUR)) (fun v1 => 
    chk 183 (Ok (has_value v1)) (
    step 184 (deref v1) (fun v2 => 
    chk 185 (Ok (has_value (Speed_toUnit v2 KNOTS))) (
    chk 186 (let! v3 := deref (Speed_toUnit v2 KNOTS) in Ok (near v3 (dlit (27) 5) (dlit (1) 20))) (
    None))))).

Definition t_Speed_toUnitKmhToMps : option N :=
    step 190 ((Speed_fromString "10" KILOMETERS_PER_HOUR)) (fun v1 => 
    chk 191 (Ok (has_value v1)) (
    step 192 (deref v1) (fun v2 => 
    chk 193 (Ok (has_value (Speed_toUnit v2 METERS_PER_SECOND))) (
    chk 194 (let! v3 := deref (Speed_toUnit v2 METERS_PER_SECOND) in Ok (near v3 (dlit (14) 5) (dlit (1) 20))) (
    None))))).

Definition t_Speed_toUnitKmhToMph : option N :=
    step 198 ((Speed_fromString "10" KILOMETERS_PER_HOUR)) (fun v1 => 
    chk 199 (Ok (has_value v1)) (
    step 200 (deref v1) (fun v2 => 
    chk 201 (Ok (has_value (Speed_toUnit v2 MILES_PER_HOUR))) (
    chk 202 (let! v3 := deref (Speed_toUnit v2 MILES_PER_HOUR) in Ok (near v3 (dlit (31) 5) (dlit (1) 20))) (
    None))))).

Definition t_Speed_toUnitMphToKnots : option N :=
    step 206 ((Speed_fromString "10" MILES_PER_HOUR)) (fun v1 => 
    chk 207 (Ok (has_value v1)) (
    step 208 (deref v1) (fun v2 => 
    chk 209 (Ok (has_value (Speed_toUnit v2 KNOTS))) (
    chk 210 (let! v3 := deref (Speed_toUnit v2 KNOTS) in Ok (near v3 (dlit (87) 10) (dlit (1) 20))) (
    None))))).

Definition t_Speed_toUnitMphToMps : option N :=
    step 214 ((Speed_fromString "10" MILES_PER_HOUR)) (fun v1 => 
    chk 215 (Ok (has_value v1)) (
    step 216 (deref v1) (fun v2 => 
    chk 217 (Ok (has_value (Speed_toUnit v2 METERS_PER_SECOND))) (
    chk 218 (let! v3 := deref (Speed_toUnit v2 METERS_PER_SECOND) in Ok (near v3 (dlit (9) 2) (dlit (1) 20))) (
    None))))).

Definition t_Speed_toUnitMphToKmh : option N :=
    step 222 ((Speed_fromString "10" MILES_PER_HOUR)) (fun v1 => 
    chk 223 (Ok (has_value v1)) (
    step 224 (deref v1) (fun v2 => 
    chk 225 (Ok (has_value (Speed_toUnit v2 KILOMETERS_PER_HOUR))) (
    chk 226 (let! v3 := deref (Speed_toUnit v2 KILOMETERS_PER_HOUR) in Ok (near v3 (dlit (161) 10) (dlit (1) 20))) (
    None))))).

Definition t_Speed_isReported : option N :=
    step 236 ((Speed_fromString "//" KNOTS)) (fun v1 => 
    chk 237 (Ok (has_value v1)) (
    chk 238 (let! v2 := deref v1 in Ok (negb (Speed_isReported v2))) (
    step 240 ((Speed_fromString "12" KNOTS)) (fun v3 => 
    chk 241 (Ok (has_value v3)) (
    chk 242 (let! v4 := deref v3 in Ok (Speed_isReported v4)) (
    None)))))).

Example tests_speed_pass : failures
  [("Speed_unitToStringKnots", t_Speed_unitToStringKnots);
   ("Speed_unitToStringMetersPerSecond", t_Speed_unitToStringMetersPerSecond);
   ("Speed_unitToStringKilometersPerHour", t_Speed_unitToStringKilometersPerHour);
   ("Speed_unitToStringWrongUnit", t_Speed_unitToStringWrongUnit);
   ("Speed_toUnitSameUnit", t_Speed_toUnitSameUnit);
   ("Speed_toUnitNotReported", t_Speed_toUnitNotReported);
   ("Speed_toUnitKnotsToMps", t_Speed_toUnitKnotsToMps);
   ("Speed_toUnitKnotsToKmh", t_Speed_toUnitKnotsToKmh);
   ("Speed_toUnitKnotsToMph", t_Speed_toUnitKnotsToMph);
   ("Speed_toUnitMpsToKnots", t_Speed_toUnitMpsToKnots);
   ("Speed_toUnitMpsToKmh", t_Speed_toUnitMpsToKmh);
   ("Speed_toUnitMpsToMph", t_Speed_toUnitMpsToMph);
   ("Speed_toUnitKmhToKnots", t_Speed_toUnitKmhToKnots);
   ("Speed_toUnitKmhToMps", t_Speed_toUnitKmhToMps);
   ("Speed_toUnitKmhToMph", t_Speed_toUnitKmhToMph);
   ("Speed_toUnitMphToKnots", t_Speed_toUnitMphToKnots);
   ("Speed_toUnitMphToMps", t_Speed_toUnitMphToMps);
   ("Speed_toUnitMphToKmh", t_Speed_toUnitMphToKmh);
   ("Speed_isReported", t_Speed_isReported)] = [].
Proof. vm_compute. reflexivity. Qed.
