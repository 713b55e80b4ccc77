(** Generated by tools/gen_tests.py from /repo/test/test_surfacefriction.cpp: the project's own unit tests, run
    against the model. These are tests of the model's fidelity, not properties. *)

From Verif Require Import Prim Regex Float Values Weather Groups1 Groups2 Groups3 Groups4 Parser TestLib.
Local Open Scope string_scope.
Local Open Scope bool_scope.

Definition t_SurfaceFriction_fromStringFrictionCoefficient : option N :=
    step 21 ((SurfaceFriction_fromString "90")) (fun v1 => 
    chk 22 (Ok (has_value v1)) (
    chk 23 (let! v2 := deref v1 in Ok (SfType_beq (sfType v2) Sf_SURFACE_FRICTION_REPORTED)) (
    chk 24 (let! v3 := deref v1 in Ok (has_value (SurfaceFriction_coefficient v3))) (
    chk 25 (let! v4 := deref v1 in let! v5 := deref (SurfaceFriction_coefficient v4) in Ok (near v5 (dlit (9) 10) (dlit (1) 200))) (
    step 27 ((SurfaceFriction_fromString "62")) (fun v6 => 
    chk 28 (Ok (has_value v6)) (
    chk 29 (let! v7 := deref v6 in Ok (SfType_beq (sfType v7) Sf_SURFACE_FRICTION_REPORTED)) (
    chk 30 (let! v8 := deref v6 in Ok (has_value (SurfaceFriction_coefficient v8))) (
    chk 31 (let! v9 := deref v6 in let! v10 := deref (SurfaceFriction_coefficient v9) in Ok (near v10 (dlit (31) 50) (dlit (1) 200))) (
    step 33 ((SurfaceFriction_fromString "08")) (fun v11 => 
    chk 34 (Ok (has_value v11)) (
    chk 35 (let! v12 := deref v11 in Ok (SfType_beq (sfType v12) Sf_SURFACE_FRICTION_REPORTED)) (
    chk 36 (let! v13 := deref v11 in Ok (has_value (SurfaceFriction_coefficient v13))) (
    chk 37 (let! v14 := deref v11 in let! v15 := deref (SurfaceFriction_coefficient v14) in Ok (near v15 (dlit (2) 25) (dlit (1) 200))) (
    step 39 ((SurfaceFriction_fromString "00")) (fun v16 => 
    chk 40 (Ok (has_value v16)) (
    chk 41 (let! v17 := deref v16 in Ok (SfType_beq (sfType v17) Sf_SURFACE_FRICTION_REPORTED)) (
    chk 42 (let! v18 := deref v16 in Ok (has_value (SurfaceFriction_coefficient v18))) (
    chk 43 (let! v19 := deref v16 in let! v20 := deref (SurfaceFriction_coefficient v19) in Ok (near v20 (dlit (0) 1) (dlit (1) 200))) (
    None)))))))))))))))))))).

Definition t_SurfaceFriction_fromStringBrakingActionPoor : option N :=
    step 47 ((SurfaceFriction_fromString "91")) (fun v1 => 
    chk 48 (Ok (has_value v1)) (
    chk 49 (let! v2 := deref v1 in Ok (SfType_beq (sfType v2) Sf_BRAKING_ACTION_REPORTED)) (
    chk 50 (let! v3 := deref v1 in Ok (has_value (SurfaceFriction_coefficient v3))) (
    chk 51 (let! v4 := deref v1 in let! v5 := deref (SurfaceFriction_coefficient v4) in Ok (near v5 (dlit (0) 1) (dlit (1) 200))) (
    None))))).

Definition t_SurfaceFriction_fromStringBrakingActionMediumPoor : option N :=
    step 55 ((SurfaceFriction_fromString "92")) (fun v1 => 
    chk 56 (Ok (has_value v1)) (
    chk 57 (let! v2 := deref v1 in Ok (SfType_beq (sfType v2) Sf_BRAKING_ACTION_REPORTED)) (
    chk 58 (let! v3 := deref v1 in Ok (has_value (SurfaceFriction_coefficient v3))) (
    chk 59 (let! v4 := deref v1 in let! v5 := deref (SurfaceFriction_coefficient v4) in Ok (near v5 (dlit (13) 50) (dlit (1) 200))) (
    None))))).

Definition t_SurfaceFriction_fromStringBrakingActionMedium : option N :=
    step 63 ((SurfaceFriction_fromString "93")) (fun v1 => 
    chk 64 (Ok (has_value v1)) (
    chk 65 (let! v2 := deref v1 in Ok (SfType_beq (sfType v2) Sf_BRAKING_ACTION_REPORTED)) (
    chk 66 (let! v3 := deref v1 in Ok (has_value (SurfaceFriction_coefficient v3))) (
    chk 67 (let! v4 := deref v1 in let! v5 := deref (SurfaceFriction_coefficient v4) in Ok (near v5 (dlit (3) 10) (dlit (1) 200))) (
    None))))).

Definition t_SurfaceFriction_fromStringBrakingActionMediumGood : option N :=
    step 71 ((SurfaceFriction_fromString "94")) (fun v1 => 
    chk 72 (Ok (has_value v1)) (
    chk 73 (let! v2 := deref v1 in Ok (SfType_beq (sfType v2) Sf_BRAKING_ACTION_REPORTED)) (
    chk 74 (let! v3 := deref v1 in Ok (has_value (SurfaceFriction_coefficient v3))) (
    chk 75 (let! v4 := deref v1 in let! v5 := deref (SurfaceFriction_coefficient v4) in Ok (near v5 (dlit (9) 25) (dlit (1) 200))) (
    None))))).

Definition t_SurfaceFriction_fromStringBrakingActionGood : option N :=
    step 79 ((SurfaceFriction_fromString "95")) (fun v1 => 
    chk 80 (Ok (has_value v1)) (
    chk 81 (let! v2 := deref v1 in Ok (SfType_beq (sfType v2) Sf_BRAKING_ACTION_REPORTED)) (
    chk 82 (let! v3 := deref v1 in Ok (has_value (SurfaceFriction_coefficient v3))) (
    chk 83 (let! v4 := deref v1 in let! v5 := deref (SurfaceFriction_coefficient v4) in Ok (near v5 (dlit (2) 5) (dlit (1) 200))) (
    None))))).

Definition t_SurfaceFriction_fromStringReservedValues : option N :=
    chk 87 (let! v1 := (SurfaceFriction_fromString "96") in Ok (negb (has_value v1))) (
    chk 88 (let! v2 := (SurfaceFriction_fromString "97") in Ok (negb (has_value v2))) (
    chk 89 (let! v3 := (SurfaceFriction_fromString "98") in Ok (negb (has_value v3))) (
    None))).

Definition t_SurfaceFriction_fromStringUnreliable : option N :=
    step 93 ((SurfaceFriction_fromString "99")) (fun v1 => 
    chk 94 (Ok (has_value v1)) (
    chk 95 (let! v2 := deref v1 in Ok (SfType_beq (sfType v2) Sf_UNRELIABLE)) (
    chk 96 (let! v3 := deref v1 in Ok (negb (has_value (SurfaceFriction_coefficient v3)))) (
    None)))).

Definition t_SurfaceFriction_fromStringNotReported : option N :=
    step 100 ((SurfaceFriction_fromString "//")) (fun v1 => 
    chk 101 (Ok (has_value v1)) (
    chk 102 (let! v2 := deref v1 in Ok (SfType_beq (sfType v2) Sf_NOT_REPORTED)) (
    chk 103 (let! v3 := deref v1 in Ok (negb (has_value (SurfaceFriction_coefficient v3)))) (
    None)))).

Definition t_SurfaceFriction_fromStringWrongFormat : option N :=
    chk 107 (let! v1 := (SurfaceFriction_fromString "") in Ok (negb (has_value v1))) (
    chk 108 (let! v2 := (SurfaceFriction_fromString "6") in Ok (negb (has_value v2))) (
    chk 109 (let! v3 := (SurfaceFriction_fromString "062") in Ok (negb (has_value v3))) (
    chk 110 (let! v4 := (SurfaceFriction_fromString "0A") in Ok (negb (has_value v4))) (
    chk 111 (let! v5 := (SurfaceFriction_fromString "///") in Ok (negb (has_value v5))) (
    chk 112 (let! v6 := (SurfaceFriction_fromString "/") in Ok (negb (has_value v6))) (
    None)))))).

Definition t_SurfaceFriction_brakingActionPoor : option N :=
    step 122 ((SurfaceFriction_fromString "00")) (fun v1 => 
    chk 123 (Ok (has_value v1)) (
    chk 124 (let! v2 := deref v1 in Ok (BrakingAction_beq (SurfaceFriction_brakingAction v2) BA_POOR)) (
    step 126 ((SurfaceFriction_fromString "25")) (fun v3 => 
    chk 127 (Ok (has_value v3)) (
    chk 128 (let! v4 := deref v3 in Ok (BrakingAction_beq (SurfaceFriction_brakingAction v4) BA_POOR)) (
    None)))))).

Definition t_SurfaceFriction_brakingActionMediumPoor : option N :=
    step 132 ((SurfaceFriction_fromString "26")) (fun v1 => 
    chk 133 (Ok (has_value v1)) (
    chk 134 (let! v2 := deref v1 in Ok (BrakingAction_beq (SurfaceFriction_brakingAction v2) BA_MEDIUM_POOR)) (
    step 136 ((SurfaceFriction_fromString "29")) (fun v3 => 
    chk 137 (Ok (has_value v3)) (
    chk 138 (let! v4 := deref v3 in Ok (BrakingAction_beq (SurfaceFriction_brakingAction v4) BA_MEDIUM_POOR)) (
    None)))))).

Definition t_SurfaceFriction_brakingActionMedium : option N :=
    step 142 ((SurfaceFriction_fromString "30")) (fun v1 => 
    chk 143 (Ok (has_value v1)) (
    chk 144 (let! v2 := deref v1 in Ok (BrakingAction_beq (SurfaceFriction_brakingAction v2) BA_MEDIUM)) (
    step 146 ((SurfaceFriction_fromString "35")) (fun v3 => 
    chk 147 (Ok (has_value v3)) (
    chk 148 (let! v4 := deref v3 in Ok (BrakingAction_beq (SurfaceFriction_brakingAction v4) BA_MEDIUM)) (
    None)))))).

Definition t_SurfaceFriction_brakingActionMediumGood : option N :=
    step 152 ((SurfaceFriction_fromString "36")) (fun v1 => 
    chk 153 (Ok (has_value v1)) (
    chk 154 (let! v2 := deref v1 in Ok (BrakingAction_beq (SurfaceFriction_brakingAction v2) BA_MEDIUM_GOOD)) (
    step 156 ((SurfaceFriction_fromString "39")) (fun v3 => 
    chk 157 (Ok (has_value v3)) (
    chk 158 (let! v4 := deref v3 in Ok (BrakingAction_beq (SurfaceFriction_brakingAction v4) BA_MEDIUM_GOOD)) (
    None)))))).

Definition t_SurfaceFriction_brakingActionGood : option N :=
    step 162 ((SurfaceFriction_fromString "40")) (fun v1 => 
    chk 163 (Ok (has_value v1)) (
    chk 164 (let! v2 := deref v1 in Ok (BrakingAction_beq (SurfaceFriction_brakingAction v2) BA_GOOD)) (
    step 166 ((SurfaceFriction_fromString "90")) (fun v3 => 
    chk 167 (Ok (has_value v3)) (
    chk 168 (let! v4 := deref v3 in Ok (BrakingAction_beq (SurfaceFriction_brakingAction v4) BA_GOOD)) (
    None)))))).

Definition t_SurfaceFriction_brakingActionUnreliable : option N :=
    step 172 ((SurfaceFriction_fromString "99")) (fun v1 => 
    chk 173 (Ok (has_value v1)) (
    chk 174 (let! v2 := deref v1 in Ok (BrakingAction_beq (SurfaceFriction_brakingAction v2) BA_NONE)) (
    None))).

Definition t_SurfaceFriction_brakingActionNotReported : option N :=
    step 178 ((SurfaceFriction_fromString "//")) (fun v1 => 
    chk 179 (Ok (has_value v1)) (
    chk 180 (let! v2 := deref v1 in Ok (BrakingAction_beq (SurfaceFriction_brakingAction v2) BA_NONE)) (
    None))).

Definition t_SurfaceFriction_isReported : option N :=
    step 190 ((SurfaceFriction_fromString "62")) (fun v1 => 
    chk 191 (Ok (has_value v1)) (
    chk 192 (let! v2 := deref v1 in Ok (SurfaceFriction_isReported v2)) (
    step 194 ((SurfaceFriction_fromString "//")) (fun v3 => 
    chk 195 (Ok (has_value v3)) (
    chk 196 (let! v4 := deref v3 in Ok (negb (SurfaceFriction_isReported v4))) (
    None)))))).

Definition t_SurfaceFriction_isUnreliable : option N :=
    step 206 ((SurfaceFriction_fromString "99")) (fun v1 => 
    chk 207 (Ok (has_value v1)) (
    chk 208 (let! v2 := deref v1 in Ok (SurfaceFriction_isUnreliable v2)) (
    step 210 ((SurfaceFriction_fromString "93")) (fun v3 => 
    chk 211 (Ok (has_value v3)) (
    chk 212 (let! v4 := deref v3 in Ok (negb (SurfaceFriction_isUnreliable v4))) (
    step 214 ((SurfaceFriction_fromString "39")) (fun v5 => 
    chk 215 (Ok (has_value v5)) (
    chk 216 (let! v6 := deref v5 in Ok (negb (SurfaceFriction_isUnreliable v6))) (
    step 218 ((SurfaceFriction_fromString "//")) (fun v7 => 
    chk 219 (Ok (has_value v7)) (
    chk 220 (let! v8 := deref v7 in Ok (negb (SurfaceFriction_isUnreliable v8))) (
    None)))))))))))).

Example tests_surfacefriction_pass : failures
  [("SurfaceFriction_fromStringFrictionCoefficient", t_SurfaceFriction_fromStringFrictionCoefficient);
   ("SurfaceFriction_fromStringBrakingActionPoor", t_SurfaceFriction_fromStringBrakingActionPoor);
   ("SurfaceFriction_fromStringBrakingActionMediumPoor", t_SurfaceFriction_fromStringBrakingActionMediumPoor);
   ("SurfaceFriction_fromStringBrakingActionMedium", t_SurfaceFriction_fromStringBrakingActionMedium);
   ("SurfaceFriction_fromStringBrakingActionMediumGood", t_SurfaceFriction_fromStringBrakingActionMediumGood);
   ("SurfaceFriction_fromStringBrakingActionGood", t_SurfaceFriction_fromStringBrakingActionGood);
   ("SurfaceFriction_fromStringReservedValues", t_SurfaceFriction_fromStringReservedValues);
   ("SurfaceFriction_fromStringUnreliable", t_SurfaceFriction_fromStringUnreliable);
   ("SurfaceFriction_fromStringNotReported", t_SurfaceFriction_fromStringNotReported);
   ("SurfaceFriction_fromStringWrongFormat", t_SurfaceFriction_fromStringWrongFormat);
   ("SurfaceFriction_brakingActionPoor", t_SurfaceFriction_brakingActionPoor);
   ("SurfaceFriction_brakingActionMediumPoor", t_SurfaceFriction_brakingActionMediumPoor);
   ("SurfaceFriction_brakingActionMedium", t_SurfaceFriction_brakingActionMedium);
   ("SurfaceFriction_brakingActionMediumGood", t_SurfaceFriction_brakingActionMediumGood);
   ("SurfaceFriction_brakingActionGood", t_SurfaceFriction_brakingActionGood);
   ("SurfaceFriction_brakingActionUnreliable", t_SurfaceFriction_brakingActionUnreliable);
   ("SurfaceFriction_brakingActionNotReported", t_SurfaceFriction_brakingActionNotReported);
   ("SurfaceFriction_isReported", t_SurfaceFriction_isReported);
   ("SurfaceFriction_isUnreliable", t_SurfaceFriction_isUnreliable)] = [].
Proof. vm_compute. reflexivity. Qed.
