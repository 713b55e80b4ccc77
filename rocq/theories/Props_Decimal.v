(** C20: conversion of decimal digit strings. *)
From Verif Require Import Prim SpecDecimal Pf_Decimal.
Local Open Scope string_scope.
Local Open Scope N_scope.

(** For all strings, start positions and digit counts: the result is there exactly when a positive
    number of digits is asked for, they lie inside the string and all are digits; it is then their
    decimal value reduced modulo 2^32. *)
Theorem C20_strToUint :
  forall (s : string) (startPos digits : nat),
    strToUint s startPos digits =
    Ok (if Nat.eqb digits 0 || Nat.ltb (slen s) (startPos + digits) then None else
        match decimal (substring startPos digits s) with
        | Some v => Some (v mod 2 ^ 32)
        | None => None
        end).
Proof. exact strToUint_spec. Qed.
Print Assumptions C20_strToUint.

(** Up to nine digits the value is exact. *)
Theorem C20_exact_up_to_nine_digits :
  forall (s : string) (startPos digits : nat) (v : N), (digits <= 9)%nat ->
    (strToUint s startPos digits = Ok (Some v) <->
     (0 < digits)%nat /\ (startPos + digits <= slen s)%nat
     /\ decimal (substring startPos digits s) = Some v).
Proof. exact strToUint_iff. Qed.
Print Assumptions C20_exact_up_to_nine_digits.

(** Ten digits are too many: the value wraps around. *)
Theorem C20_ten_digits_wrap_refuted :
  exists (s : string) (v : N),
    decimal s = Some v /\ slen s = 10%nat /\ strToUint s 0 10 = Ok (Some (v - 2 ^ 32)).
Proof. exact strToUint_wraps. Qed.
Print Assumptions C20_ten_digits_wrap_refuted.

Example C20_nonvacuous :
  strToUint "KT0123456789" 2 9 = Ok (Some 12345678) /\ decimal "012345678" = Some 12345678
  /\ strToUint "12A4" 0 3 = Ok None /\ strToUint "123" 1 3 = Ok None.
Proof. repeat split; reflexivity. Qed.
