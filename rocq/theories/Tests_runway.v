(** Generated by tools/gen_tests.py from /repo/test/test_runway.cpp: the project's own unit tests, run
    against the model. These are tests of the model's fidelity, not properties. *)

From Verif Require Import Prim Regex Float Values Weather Groups1 Groups2 Groups3 Groups4 Parser TestLib.
Local Open Scope string_scope.
Local Open Scope bool_scope.

Definition t_Runway_makeAllRunways : option N :=
    chk 18 (Ok (Runway_isAllRunways (Runway_makeAllRunways))) (
    None).

Definition t_Runway_fromStringWithoutDesignator : option N :=
    step 28 ((Runway_fromString "R00" false)) (fun v1 => 
    chk 29 (Ok (has_value v1)) (
    chk 30 (let! v2 := deref v1 in Ok (N.eqb (rNumber v2) 0%N)) (
    chk 31 (let! v3 := deref v1 in Ok (RwDesignator_beq (rDesignator v3) Rw_NONE)) (
    None)))).

Definition t_Runway_fromStringWithDesignatorL : option N :=
    step 35 ((Runway_fromString "R30L" false)) (fun v1 => 
    chk 36 (Ok (has_value v1)) (
    chk 37 (let! v2 := deref v1 in Ok (N.eqb (rNumber v2) 30%N)) (
    chk 38 (let! v3 := deref v1 in Ok (RwDesignator_beq (rDesignator v3) Rw_LEFT)) (
    None)))).

Definition t_Runway_fromStringWithDesignatorC : option N :=
    step 42 ((Runway_fromString "R30C" false)) (fun v1 => 
    chk 43 (Ok (has_value v1)) (
    chk 44 (let! v2 := deref v1 in Ok (N.eqb (rNumber v2) 30%N)) (
    chk 45 (let! v3 := deref v1 in Ok (RwDesignator_beq (rDesignator v3) Rw_CENTER)) (
    None)))).

Definition t_Runway_fromStringWithDesignatorR : option N :=
    step 49 ((Runway_fromString "R30R" false)) (fun v1 => 
    chk 50 (Ok (has_value v1)) (
    chk 51 (let! v2 := deref v1 in Ok (N.eqb (rNumber v2) 30%N)) (
    chk 52 (let! v3 := deref v1 in Ok (RwDesignator_beq (rDesignator v3) Rw_RIGHT)) (
    None)))).

Definition t_Runway_fromStringAllRunways : option N :=
    step 56 ((Runway_fromString "R88" false)) (fun v1 => 
    chk 57 (Ok (has_value v1)) (
    chk 58 (let! v2 := deref v1 in Ok (N.eqb (rNumber v2) 88%N)) (
    chk 59 (let! v3 := deref v1 in Ok (RwDesignator_beq (rDesignator v3) Rw_NONE)) (
    None)))).

Definition t_Runway_fromStringLastMessageRepetition : option N :=
    step 63 ((Runway_fromString "R99" false)) (fun v1 => 
    chk 64 (Ok (has_value v1)) (
    chk 65 (let! v2 := deref v1 in Ok (N.eqb (rNumber v2) 99%N)) (
    chk 66 (let! v3 := deref v1 in Ok (RwDesignator_beq (rDesignator v3) Rw_NONE)) (
    None)))).

Definition t_Runway_fromStringWrongFormat : option N :=
    chk 70 (let! v1 := (Runway_fromString "" false) in Ok (negb (has_value v1))) (
    chk 71 (let! v2 := (Runway_fromString "00" false) in Ok (negb (has_value v2))) (
    chk 72 (let! v3 := (Runway_fromString "R" false) in Ok (negb (has_value v3))) (
    chk 73 (let! v4 := (Runway_fromString "R0A" false) in Ok (negb (has_value v4))) (
    chk 74 (let! v5 := (Runway_fromString "RR00" false) in Ok (negb (has_value v5))) (
    chk 75 (let! v6 := (Runway_fromString "RW00" false) in Ok (negb (has_value v6))) (
    chk 76 (let! v7 := (Runway_fromString "R00X" false) in Ok (negb (has_value v7))) (
    chk 77 (let! v8 := (Runway_fromString "R00/" false) in Ok (negb (has_value v8))) (
    chk 78 (let! v9 := (Runway_fromString "R00R/" false) in Ok (negb (has_value v9))) (
    chk 79 (let! v10 := (Runway_fromString "R//" false) in Ok (negb (has_value v10))) (
    chk 80 (let! v11 := (Runway_fromString "R0" false) in Ok (negb (has_value v11))) (
    chk 81 (let! v12 := (Runway_fromString "R0C" false) in Ok (negb (has_value v12))) (
    chk 82 (let! v13 := (Runway_fromString "RWY" false) in Ok (negb (has_value v13))) (
    chk 83 (let! v14 := (Runway_fromString "RWY0" false) in Ok (negb (has_value v14))) (
    chk 84 (let! v15 := (Runway_fromString "RWY0C" false) in Ok (negb (has_value v15))) (
    None))))))))))))))).

Definition t_Runway_fromStringRwy : option N :=
    chk 88 (let! v1 := (Runway_fromString "RWY00" false) in Ok (negb (has_value v1))) (
    chk 89 (let! v2 := (Runway_fromString "RWY00R" false) in Ok (negb (has_value v2))) (
    chk 90 (let! v3 := (Runway_fromString "RWY00C" false) in Ok (negb (has_value v3))) (
    chk 91 (let! v4 := (Runway_fromString "RWY00L" false) in Ok (negb (has_value v4))) (
    None)))).

Definition t_Runway_fromStringWithRwyOptionR : option N :=
    step 95 ((Runway_fromString "R36" true)) (fun v1 => 
    chk 96 (Ok (has_value v1)) (
    chk 97 (let! v2 := deref v1 in Ok (N.eqb (rNumber v2) 36%N)) (
    chk 98 (let! v3 := deref v1 in Ok (RwDesignator_beq (rDesignator v3) Rw_NONE)) (
    step 100 ((Runway_fromString "R36R" true)) (fun v4 => 
    chk 101 (Ok (has_value v4)) (
    chk 102 (let! v5 := deref v4 in Ok (N.eqb (rNumber v5) 36%N)) (
    chk 103 (let! v6 := deref v4 in Ok (RwDesignator_beq (rDesignator v6) Rw_RIGHT)) (
    step 105 ((Runway_fromString "R36C" true)) (fun v7 => 
    chk 106 (Ok (has_value v7)) (
    chk 107 (let! v8 := deref v7 in Ok (N.eqb (rNumber v8) 36%N)) (
    chk 108 (let! v9 := deref v7 in Ok (RwDesignator_beq (rDesignator v9) Rw_CENTER)) (
    step 110 ((Runway_fromString "R36L" true)) (fun v10 => 
    chk 111 (Ok (has_value v10)) (
    chk 112 (let! v11 := deref v10 in Ok (N.eqb (rNumber v11) 36%N)) (
    chk 113 (let! v12 := deref v10 in Ok (RwDesignator_beq (rDesignator v12) Rw_LEFT)) (
    None)))))))))))))))).

Definition t_Runway_fromStringWithRwyOptionRWY : option N :=
    step 117 ((Runway_fromString "RWY36" true)) (fun v1 => 
    chk 118 (Ok (has_value v1)) (
    chk 119 (let! v2 := deref v1 in Ok (N.eqb (rNumber v2) 36%N)) (
    chk 120 (let! v3 := deref v1 in Ok (RwDesignator_beq (rDesignator v3) Rw_NONE)) (
    step 122 ((Runway_fromString "RWY36R" true)) (fun v4 => 
    chk 123 (Ok (has_value v4)) (
    chk 124 (let! v5 := deref v4 in Ok (N.eqb (rNumber v5) 36%N)) (
    chk 125 (let! v6 := deref v4 in Ok (RwDesignator_beq (rDesignator v6) Rw_RIGHT)) (
    step 127 ((Runway_fromString "RWY36C" true)) (fun v7 => 
    chk 128 (Ok (has_value v7)) (
    chk 129 (let! v8 := deref v7 in Ok (N.eqb (rNumber v8) 36%N)) (
    chk 130 (let! v9 := deref v7 in Ok (RwDesignator_beq (rDesignator v9) Rw_CENTER)) (
    step 132 ((Runway_fromString "RWY36L" true)) (fun v10 => 
    chk 133 (Ok (has_value v10)) (
    chk 134 (let! v11 := deref v10 in Ok (N.eqb (rNumber v11) 36%N)) (
    chk 135 (let! v12 := deref v10 in Ok (RwDesignator_beq (rDesignator v12) Rw_LEFT)) (
    None)))))))))))))))).

Definition t_Runway_fromStringWrongFormatWithRwyOption : option N :=
    chk 139 (let! v1 := (Runway_fromString "" true) in Ok (negb (has_value v1))) (
    chk 140 (let! v2 := (Runway_fromString "00" true) in Ok (negb (has_value v2))) (
    chk 141 (let! v3 := (Runway_fromString "R" true) in Ok (negb (has_value v3))) (
    chk 142 (let! v4 := (Runway_fromString "R0A" true) in Ok (negb (has_value v4))) (
    chk 143 (let! v5 := (Runway_fromString "RR00" true) in Ok (negb (has_value v5))) (
    chk 144 (let! v6 := (Runway_fromString "RW00" true) in Ok (negb (has_value v6))) (
    chk 145 (let! v7 := (Runway_fromString "R00X" true) in Ok (negb (has_value v7))) (
    chk 146 (let! v8 := (Runway_fromString "R00/" true) in Ok (negb (has_value v8))) (
    chk 147 (let! v9 := (Runway_fromString "R00R/" true) in Ok (negb (has_value v9))) (
    chk 148 (let! v10 := (Runway_fromString "R//" true) in Ok (negb (has_value v10))) (
    chk 149 (let! v11 := (Runway_fromString "R0" true) in Ok (negb (has_value v11))) (
    chk 150 (let! v12 := (Runway_fromString "R0C" true) in Ok (negb (has_value v12))) (
    chk 151 (let! v13 := (Runway_fromString "RWY" true) in Ok (negb (has_value v13))) (
    chk 152 (let! v14 := (Runway_fromString "RWY0" true) in Ok (negb (has_value v14))) (
    chk 153 (let! v15 := (Runway_fromString "RWY0C" true) in Ok (negb (has_value v15))) (
    None))))))))))))))).

Definition t_Runway_isAllRunwaysTrue : option N :=
    chk 164 (let! v1 := (Runway_fromString "R88" false) in let! v2 := deref v1 in Ok (Runway_isAllRunways v2)) (
    None).

Definition t_Runway_isAllRunwaysFalse : option N :=
    chk 168 (let! v1 := (Runway_fromString "R25L" false) in let! v2 := deref v1 in Ok (negb (Runway_isAllRunways v2))) (
    chk 169 (let! v3 := (Runway_fromString "R25" false) in let! v4 := deref v3 in Ok (negb (Runway_isAllRunways v4))) (
    chk 170 (let! v5 := (Runway_fromString "R88C" false) in let! v6 := deref v5 in Ok (negb (Runway_isAllRunways v6))) (
    chk 171 (let! v7 := (Runway_fromString "R99" false) in let! v8 := deref v7 in Ok (negb (Runway_isAllRunways v8))) (
    None)))).

Definition t_Runway_isMessageRepetitionTrue : option N :=
    chk 175 (let! v1 := (Runway_fromString "R99" false) in let! v2 := deref v1 in Ok (Runway_isMessageRepetition v2)) (
    None).

Definition t_Runway_isMessageRepetitionFalse : option N :=
    chk 179 (let! v1 := (Runway_fromString "R25L" false) in let! v2 := deref v1 in Ok (negb (Runway_isMessageRepetition v2))) (
    chk 180 (let! v3 := (Runway_fromString "R25" false) in let! v4 := deref v3 in Ok (negb (Runway_isMessageRepetition v4))) (
    chk 181 (let! v5 := (Runway_fromString "R99C" false) in let! v6 := deref v5 in Ok (negb (Runway_isMessageRepetition v6))) (
    chk 182 (let! v7 := (Runway_fromString "R88" false) in let! v8 := deref v7 in Ok (negb (Runway_isMessageRepetition v8))) (
    None)))).

Definition t_Runway_isValidRunwayNumberCorrect : option N :=
    chk 191 (let! v1 := (Runway_fromString "R00" false) in let! v2 := deref v1 in Ok (Runway_isValid v2)) (
    chk 192 (let! v3 := (Runway_fromString "R21" false) in let! v4 := deref v3 in Ok (Runway_isValid v4)) (
    chk 193 (let! v5 := (Runway_fromString "R36" false) in let! v6 := deref v5 in Ok (Runway_isValid v6)) (
    chk 194 (let! v7 := (Runway_fromString "R00R" false) in let! v8 := deref v7 in Ok (Runway_isValid v8)) (
    chk 195 (let! v9 := (Runway_fromString "R36R" false) in let! v10 := deref v9 in Ok (Runway_isValid v10)) (
    None))))).

Definition t_Runway_isValidRunwayNumberIncorrect : option N :=
    chk 199 (let! v1 := (Runway_fromString "R37" false) in let! v2 := deref v1 in Ok (negb (Runway_isValid v2))) (
    chk 200 (let! v3 := (Runway_fromString "R72" false) in let! v4 := deref v3 in Ok (negb (Runway_isValid v4))) (
    chk 201 (let! v5 := (Runway_fromString "R37R" false) in let! v6 := deref v5 in Ok (negb (Runway_isValid v6))) (
    None))).

Definition t_Runway_isValidSpecialCodes : option N :=
    chk 205 (let! v1 := (Runway_fromString "R88" false) in let! v2 := deref v1 in Ok (Runway_isValid v2)) (
    chk 206 (let! v3 := (Runway_fromString "R99" false) in let! v4 := deref v3 in Ok (Runway_isValid v4)) (
    None)).

Definition t_Runway_isValidSpecialCodesIncorrectDesignator : option N :=
    chk 210 (let! v1 := (Runway_fromString "R88R" false) in let! v2 := deref v1 in Ok (negb (Runway_isValid v2))) (
    chk 211 (let! v3 := (Runway_fromString "R88C" false) in let! v4 := deref v3 in Ok (negb (Runway_isValid v4))) (
    chk 212 (let! v5 := (Runway_fromString "R88L" false) in let! v6 := deref v5 in Ok (negb (Runway_isValid v6))) (
    chk 213 (let! v7 := (Runway_fromString "R99R" false) in let! v8 := deref v7 in Ok (negb (Runway_isValid v8))) (
    chk 214 (let! v9 := (Runway_fromString "R99C" false) in let! v10 := deref v9 in Ok (negb (Runway_isValid v10))) (
    chk 215 (let! v11 := (Runway_fromString "R99L" false) in let! v12 := deref v11 in Ok (negb (Runway_isValid v12))) (
    None)))))).

Example tests_runway_pass : failures
  [("Runway_makeAllRunways", t_Runway_makeAllRunways);
   ("Runway_fromStringWithoutDesignator", t_Runway_fromStringWithoutDesignator);
   ("Runway_fromStringWithDesignatorL", t_Runway_fromStringWithDesignatorL);
   ("Runway_fromStringWithDesignatorC", t_Runway_fromStringWithDesignatorC);
   ("Runway_fromStringWithDesignatorR", t_Runway_fromStringWithDesignatorR);
   ("Runway_fromStringAllRunways", t_Runway_fromStringAllRunways);
   ("Runway_fromStringLastMessageRepetition", t_Runway_fromStringLastMessageRepetition);
   ("Runway_fromStringWrongFormat", t_Runway_fromStringWrongFormat);
   ("Runway_fromStringRwy", t_Runway_fromStringRwy);
   ("Runway_fromStringWithRwyOptionR", t_Runway_fromStringWithRwyOptionR);
   ("Runway_fromStringWithRwyOptionRWY", t_Runway_fromStringWithRwyOptionRWY);
   ("Runway_fromStringWrongFormatWithRwyOption", t_Runway_fromStringWrongFormatWithRwyOption);
   ("Runway_isAllRunwaysTrue", t_Runway_isAllRunwaysTrue);
   ("Runway_isAllRunwaysFalse", t_Runway_isAllRunwaysFalse);
   ("Runway_isMessageRepetitionTrue", t_Runway_isMessageRepetitionTrue);
   ("Runway_isMessageRepetitionFalse", t_Runway_isMessageRepetitionFalse);
   ("Runway_isValidRunwayNumberCorrect", t_Runway_isValidRunwayNumberCorrect);
   ("Runway_isValidRunwayNumberIncorrect", t_Runway_isValidRunwayNumberIncorrect);
   ("Runway_isValidSpecialCodes", t_Runway_isValidSpecialCodes);
   ("Runway_isValidSpecialCodesIncorrectDesignator", t_Runway_isValidSpecialCodesIncorrectDesignator)] = [].
Proof. vm_compute. reflexivity. Qed.
