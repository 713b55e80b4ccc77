(** Generated by tools/gen_tests.py from /repo/test/test_fractionstrtouint.cpp: the project's own unit tests, run
    against the model. These are tests of the model's fidelity, not properties. *)

From Verif Require Import Prim Regex Float Values Weather Groups1 Groups2 Groups3 Groups4 Parser TestLib.
Local Open Scope string_scope.
Local Open Scope bool_scope.

Definition t_FractionStrToUint_numerator1digit_denominator1digit : option N :=
    step 17 ((fractionStrToUint "3/8" 0%nat 3%nat)) (fun v1 => 
    chk 18 (Ok (has_value v1)) (
    chk 19 (let! v2 := deref v1 in Ok (N.eqb (fst v2) 3%N)) (
    chk 20 (let! v3 := deref v1 in Ok (N.eqb (snd v3) 8%N)) (
    step 22 ((fractionStrToUint "0/9" 0%nat 3%nat)) (fun v4 => 
    chk 23 (Ok (has_value v4)) (
    chk 24 (let! v5 := deref v4 in Ok (N.eqb (fst v5) 0%N)) (
    chk 25 (let! v6 := deref v4 in Ok (N.eqb (snd v6) 9%N)) (
    step 27 ((fractionStrToUint "9/0" 0%nat 3%nat)) (fun v7 => 
    chk 28 (Ok (has_value v7)) (
    chk 29 (let! v8 := deref v7 in Ok (N.eqb (fst v8) 9%N)) (
    chk 30 (let! v9 := deref v7 in Ok (N.eqb (snd v9) 0%N)) (
    None)))))))))))).

Definition t_FractionStrToUint_numerator1digit_denominator2digit : option N :=
    step 34 ((fractionStrToUint "5/16" 0%nat 4%nat)) (fun v1 => 
    chk 35 (Ok (has_value v1)) (
    chk 36 (let! v2 := deref v1 in Ok (N.eqb (fst v2) 5%N)) (
    chk 37 (let! v3 := deref v1 in Ok (N.eqb (snd v3) 16%N)) (
    step 39 ((fractionStrToUint "0/99" 0%nat 4%nat)) (fun v4 => 
    chk 40 (Ok (has_value v4)) (
    chk 41 (let! v5 := deref v4 in Ok (N.eqb (fst v5) 0%N)) (
    chk 42 (let! v6 := deref v4 in Ok (N.eqb (snd v6) 99%N)) (
    step 44 ((fractionStrToUint "9/00" 0%nat 4%nat)) (fun v7 => 
    chk 45 (Ok (has_value v7)) (
    chk 46 (let! v8 := deref v7 in Ok (N.eqb (fst v8) 9%N)) (
    chk 47 (let! v9 := deref v7 in Ok (N.eqb (snd v9) 0%N)) (
    None)))))))))))).

Definition t_FractionStrToUint_numerator2digit_denominator1digit : option N :=
    step 51 ((fractionStrToUint "11/2" 0%nat 4%nat)) (fun v1 => 
    chk 52 (Ok (has_value v1)) (
    chk 53 (let! v2 := deref v1 in Ok (N.eqb (fst v2) 11%N)) (
    chk 54 (let! v3 := deref v1 in Ok (N.eqb (snd v3) 2%N)) (
    step 56 ((fractionStrToUint "00/9" 0%nat 4%nat)) (fun v4 => 
    chk 57 (Ok (has_value v4)) (
    chk 58 (let! v5 := deref v4 in Ok (N.eqb (fst v5) 0%N)) (
    chk 59 (let! v6 := deref v4 in Ok (N.eqb (snd v6) 9%N)) (
    step 61 ((fractionStrToUint "9/00" 0%nat 4%nat)) (fun v7 => 
    chk 62 (Ok (has_value v7)) (
    chk 63 (let! v8 := deref v7 in Ok (N.eqb (fst v8) 9%N)) (
    chk 64 (let! v9 := deref v7 in Ok (N.eqb (snd v9) 0%N)) (
    None)))))))))))).

Definition t_FractionStrToUint_numerator2digit_denominator2digit : option N :=
    step 68 ((fractionStrToUint "11/16" 0%nat 5%nat)) (fun v1 => 
    chk 69 (Ok (has_value v1)) (
    chk 70 (let! v2 := deref v1 in Ok (N.eqb (fst v2) 11%N)) (
    chk 71 (let! v3 := deref v1 in Ok (N.eqb (snd v3) 16%N)) (
    step 73 ((fractionStrToUint "00/99" 0%nat 5%nat)) (fun v4 => 
    chk 74 (Ok (has_value v4)) (
    chk 75 (let! v5 := deref v4 in Ok (N.eqb (fst v5) 0%N)) (
    chk 76 (let! v6 := deref v4 in Ok (N.eqb (snd v6) 99%N)) (
    step 78 ((fractionStrToUint "99/00" 0%nat 5%nat)) (fun v7 => 
    chk 79 (Ok (has_value v7)) (
    chk 80 (let! v8 := deref v7 in Ok (N.eqb (fst v8) 99%N)) (
    chk 81 (let! v9 := deref v7 in Ok (N.eqb (snd v9) 0%N)) (
    None)))))))))))).

Definition t_FractionStrToUint_length : option N :=
    step 91 ((fractionStrToUint "3/4SM" 0%nat 3%nat)) (fun v1 => 
    chk 92 (Ok (has_value v1)) (
    chk 93 (let! v2 := deref v1 in Ok (N.eqb (fst v2) 3%N)) (
    chk 94 (let! v3 := deref v1 in Ok (N.eqb (snd v3) 4%N)) (
    step 96 ((fractionStrToUint "5/16" 0%nat 50%nat)) (fun v4 => 
    chk 97 (Ok (has_value v4)) (
    chk 98 (let! v5 := deref v4 in Ok (N.eqb (fst v5) 5%N)) (
    chk 99 (let! v6 := deref v4 in Ok (N.eqb (snd v6) 16%N)) (
    None)))))))).

Definition t_FractionStrToUint_startPosAndLength : option N :=
    step 103 ((fractionStrToUint "AAAA3/4SM" 4%nat 3%nat)) (fun v1 => 
    chk 104 (Ok (has_value v1)) (
    chk 105 (let! v2 := deref v1 in Ok (N.eqb (fst v2) 3%N)) (
    chk 106 (let! v3 := deref v1 in Ok (N.eqb (snd v3) 4%N)) (
    step 108 ((fractionStrToUint "A5/16" 1%nat 50%nat)) (fun v4 => 
    chk 109 (Ok (has_value v4)) (
    chk 110 (let! v5 := deref v4 in Ok (N.eqb (fst v5) 5%N)) (
    chk 111 (let! v6 := deref v4 in Ok (N.eqb (snd v6) 16%N)) (
    None)))))))).

Example tests_fractionstrtouint_pass : failures
  [("FractionStrToUint_numerator1digit_denominator1digit", t_FractionStrToUint_numerator1digit_denominator1digit);
   ("FractionStrToUint_numerator1digit_denominator2digit", t_FractionStrToUint_numerator1digit_denominator2digit);
   ("FractionStrToUint_numerator2digit_denominator1digit", t_FractionStrToUint_numerator2digit_denominator1digit);
   ("FractionStrToUint_numerator2digit_denominator2digit", t_FractionStrToUint_numerator2digit_denominator2digit);
   ("FractionStrToUint_length", t_FractionStrToUint_length);
   ("FractionStrToUint_startPosAndLength", t_FractionStrToUint_startPosAndLength)] = [].
Proof. vm_compute. reflexivity. Qed.
