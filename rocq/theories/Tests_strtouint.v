(** Generated by tools/gen_tests.py from /repo/test/test_strtouint.cpp: the project's own unit tests, run
    against the model. These are tests of the model's fidelity, not properties. *)

From Verif Require Import Prim Regex Float Values Weather Groups1 Groups2 Groups3 Groups4 Parser TestLib.
Local Open Scope string_scope.
Local Open Scope bool_scope.

Definition t_StrToUint_number1digit : option N :=
    step 17 ((strToUint "0" 0%nat 1%nat)) (fun v1 => 
    chk 18 (Ok (has_value v1)) (
    chk 19 (let! v2 := deref v1 in Ok (N.eqb v2 0%N)) (
    step 21 ((strToUint "1" 0%nat 1%nat)) (fun v3 => 
    chk 22 (Ok (has_value v3)) (
    chk 23 (let! v4 := deref v3 in Ok (N.eqb v4 1%N)) (
    step 25 ((strToUint "9" 0%nat 1%nat)) (fun v5 => 
    chk 26 (Ok (has_value v5)) (
    chk 27 (let! v6 := deref v5 in Ok (N.eqb v6 9%N)) (
    step 29 ((strToUint "A5A" 1%nat 1%nat)) (fun v7 => 
    chk 30 (Ok (has_value v7)) (
    chk 31 (let! v8 := deref v7 in Ok (N.eqb v8 5%N)) (
    step 33 ((strToUint "A5" 1%nat 1%nat)) (fun v9 => 
    chk 34 (Ok (has_value v9)) (
    chk 35 (let! v10 := deref v9 in Ok (N.eqb v10 5%N)) (
    None))))))))))))))).

Definition t_StrToUint_number2digit : option N :=
    step 39 ((strToUint "00" 0%nat 2%nat)) (fun v1 => 
    chk 40 (Ok (has_value v1)) (
    chk 41 (let! v2 := deref v1 in Ok (N.eqb v2 0%N)) (
    step 43 ((strToUint "01" 0%nat 2%nat)) (fun v3 => 
    chk 44 (Ok (has_value v3)) (
    chk 45 (let! v4 := deref v3 in Ok (N.eqb v4 1%N)) (
    step 47 ((strToUint "42" 0%nat 2%nat)) (fun v5 => 
    chk 48 (Ok (has_value v5)) (
    chk 49 (let! v6 := deref v5 in Ok (N.eqb v6 42%N)) (
    step 51 ((strToUint "99" 0%nat 2%nat)) (fun v7 => 
    chk 52 (Ok (has_value v7)) (
    chk 53 (let! v8 := deref v7 in Ok (N.eqb v8 99%N)) (
    step 55 ((strToUint "A74A" 1%nat 2%nat)) (fun v9 => 
    chk 56 (Ok (has_value v9)) (
    chk 57 (let! v10 := deref v9 in Ok (N.eqb v10 74%N)) (
    step 59 ((strToUint "A74" 1%nat 2%nat)) (fun v11 => 
    chk 60 (Ok (has_value v11)) (
    chk 61 (let! v12 := deref v11 in Ok (N.eqb v12 74%N)) (
    None)))))))))))))))))).

Definition t_StrToUint_number3digit : option N :=
    step 65 ((strToUint "000" 0%nat 3%nat)) (fun v1 => 
    chk 66 (Ok (has_value v1)) (
    chk 67 (let! v2 := deref v1 in Ok (N.eqb v2 0%N)) (
    step 69 ((strToUint "001" 0%nat 3%nat)) (fun v3 => 
    chk 70 (Ok (has_value v3)) (
    chk 71 (let! v4 := deref v3 in Ok (N.eqb v4 1%N)) (
    step 73 ((strToUint "019" 0%nat 3%nat)) (fun v5 => 
    chk 74 (Ok (has_value v5)) (
    chk 75 (let! v6 := deref v5 in Ok (N.eqb v6 19%N)) (
    step 77 ((strToUint "417" 0%nat 3%nat)) (fun v7 => 
    chk 78 (Ok (has_value v7)) (
    chk 79 (let! v8 := deref v7 in Ok (N.eqb v8 417%N)) (
    step 81 ((strToUint "999" 0%nat 3%nat)) (fun v9 => 
    chk 82 (Ok (has_value v9)) (
    chk 83 (let! v10 := deref v9 in Ok (N.eqb v10 999%N)) (
    step 85 ((strToUint "AAAAAA319A" 6%nat 3%nat)) (fun v11 => 
    chk 86 (Ok (has_value v11)) (
    chk 87 (let! v12 := deref v11 in Ok (N.eqb v12 319%N)) (
    step 89 ((strToUint "AAAAAA319" 6%nat 3%nat)) (fun v13 => 
    chk 90 (Ok (has_value v13)) (
    chk 91 (let! v14 := deref v13 in Ok (N.eqb v14 319%N)) (
    None))))))))))))))))))))).

Definition t_StrToUint_number4digit : option N :=
    step 96 ((strToUint "0000" 0%nat 4%nat)) (fun v1 => 
    chk 97 (Ok (has_value v1)) (
    chk 98 (let! v2 := deref v1 in Ok (N.eqb v2 0%N)) (
    step 100 ((strToUint "0001" 0%nat 4%nat)) (fun v3 => 
    chk 101 (Ok (has_value v3)) (
    chk 102 (let! v4 := deref v3 in Ok (N.eqb v4 1%N)) (
    step 104 ((strToUint "0019" 0%nat 4%nat)) (fun v5 => 
    chk 105 (Ok (has_value v5)) (
    chk 106 (let! v6 := deref v5 in Ok (N.eqb v6 19%N)) (
    step 108 ((strToUint "0417" 0%nat 4%nat)) (fun v7 => 
    chk 109 (Ok (has_value v7)) (
    chk 110 (let! v8 := deref v7 in Ok (N.eqb v8 417%N)) (
    step 112 ((strToUint "1482" 0%nat 4%nat)) (fun v9 => 
    chk 113 (Ok (has_value v9)) (
    chk 114 (let! v10 := deref v9 in Ok (N.eqb v10 1482%N)) (
    step 116 ((strToUint "9999" 0%nat 4%nat)) (fun v11 => 
    chk 117 (Ok (has_value v11)) (
    chk 118 (let! v12 := deref v11 in Ok (N.eqb v12 9999%N)) (
    step 120 ((strToUint "A7531A" 1%nat 4%nat)) (fun v13 => 
    chk 121 (Ok (has_value v13)) (
    chk 122 (let! v14 := deref v13 in Ok (N.eqb v14 7531%N)) (
    step 124 ((strToUint "A7531" 1%nat 4%nat)) (fun v15 => 
    chk 125 (Ok (has_value v15)) (
    chk 126 (let! v16 := deref v15 in Ok (N.eqb v16 7531%N)) (
    None)))))))))))))))))))))))).

Definition t_StrToUint_stringTooShort : option N :=
    chk 136 (let! v1 := (strToUint "1" 0%nat 2%nat) in Ok (negb (has_value v1))) (
    chk 137 (let! v2 := (strToUint "1" 1%nat 1%nat) in Ok (negb (has_value v2))) (
    chk 138 (let! v3 := (strToUint "A1" 1%nat 2%nat) in Ok (negb (has_value v3))) (
    chk 140 (let! v4 := (strToUint "01" 0%nat 3%nat) in Ok (negb (has_value v4))) (
    chk 141 (let! v5 := (strToUint "01" 1%nat 2%nat) in Ok (negb (has_value v5))) (
    chk 142 (let! v6 := (strToUint "A01" 1%nat 3%nat) in Ok (negb (has_value v6))) (
    chk 144 (let! v7 := (strToUint "001" 0%nat 4%nat) in Ok (negb (has_value v7))) (
    chk 145 (let! v8 := (strToUint "001" 1%nat 3%nat) in Ok (negb (has_value v8))) (
    chk 146 (let! v9 := (strToUint "A001" 1%nat 4%nat) in Ok (negb (has_value v9))) (
    chk 148 (let! v10 := (strToUint "0001" 0%nat 5%nat) in Ok (negb (has_value v10))) (
    chk 149 (let! v11 := (strToUint "0001" 1%nat 4%nat) in Ok (negb (has_value v11))) (
    chk 150 (let! v12 := (strToUint "A0001" 1%nat 5%nat) in Ok (negb (has_value v12))) (
    None)))))))))))).

Definition t_StrToUint_wrongChars : option N :=
    chk 154 (let! v1 := (strToUint "0A" 0%nat 2%nat) in Ok (negb (has_value v1))) (
    chk 155 (let! v2 := (strToUint "A0" 0%nat 2%nat) in Ok (negb (has_value v2))) (
    chk 156 (let! v3 := (strToUint "M00" 0%nat 3%nat) in Ok (negb (has_value v3))) (
    chk 157 (let! v4 := (strToUint " 0" 0%nat 2%nat) in Ok (negb (has_value v4))) (
    chk 158 (let! v5 := (strToUint "-0" 0%nat 2%nat) in Ok (negb (has_value v5))) (
    chk 159 (let! v6 := (strToUint "+0" 0%nat 2%nat) in Ok (negb (has_value v6))) (
    chk 160 (let! v7 := (strToUint "0.0" 0%nat 3%nat) in Ok (negb (has_value v7))) (
    chk 161 (let! v8 := (strToUint "0x0" 0%nat 3%nat) in Ok (negb (has_value v8))) (
    chk 162 (let! v9 := (strToUint "//" 0%nat 2%nat) in Ok (negb (has_value v9))) (
    None))))))))).

Definition t_StrToUint_emptyString : option N :=
    chk 166 (let! v1 := (strToUint "" 0%nat 1%nat) in Ok (negb (has_value v1))) (
    chk 167 (let! v2 := (strToUint "" 1%nat 1%nat) in Ok (negb (has_value v2))) (
    chk 168 (let! v3 := (strToUint "" 0%nat 0%nat) in Ok (negb (has_value v3))) (
    None))).

Definition t_StrToUint_zeroDigits : option N :=
    chk 172 (let! v1 := (strToUint "123" 0%nat 0%nat) in Ok (negb (has_value v1))) (
    chk 173 (let! v2 := (strToUint "123" 1%nat 0%nat) in Ok (negb (has_value v2))) (
    chk 174 (let! v3 := (strToUint "123" 3%nat 0%nat) in Ok (negb (has_value v3))) (
    None))).

Example tests_strtouint_pass : failures
  [("StrToUint_number1digit", t_StrToUint_number1digit);
   ("StrToUint_number2digit", t_StrToUint_number2digit);
   ("StrToUint_number3digit", t_StrToUint_number3digit);
   ("StrToUint_number4digit", t_StrToUint_number4digit);
   ("StrToUint_stringTooShort", t_StrToUint_stringTooShort);
   ("StrToUint_wrongChars", t_StrToUint_wrongChars);
   ("StrToUint_emptyString", t_StrToUint_emptyString);
   ("StrToUint_zeroDigits", t_StrToUint_zeroDigits)] = [].
Proof. vm_compute. reflexivity. Qed.
