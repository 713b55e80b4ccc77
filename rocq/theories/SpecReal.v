(** Specification for the value classes: the number a floating-point value stands for. *)
From Coq Require Import ZArith NArith QArith Qabs.
From Verif Require Import Float.

(** The exact value of a finite float or double; infinities and NaN have none. *)
Definition flt_value (x : flt) : option Q :=
  match x with
  | S754_zero _ => Some 0%Q
  | S754_finite s m e =>
    let z := if s then Zneg m else Zpos m in
    Some (if (0 <=? e)%Z then inject_Z (z * 2 ^ e) else z # Z.to_pos (2 ^ (- e)))%Q
  | _ => None
  end.
(** The value is [q], exactly *)
Definition is_exactly (x : flt) (q : Q) : Prop := exists v, flt_value x = Some v /\ (v == q)%Q.
(** The value is within [eps] of [q] *)
Definition within (eps : Q) (x : flt) (q : Q) : Prop :=
  exists v, flt_value x = Some v /\ (Qabs (v - q) <= eps)%Q.
(** As many as [n] of [1/d] *)
Definition parts (n : N) (d : positive) : Q := (Z.of_N n # d)%Q.
(** The same with a sign *)
Definition signed_value (minus : bool) (v : N) (d : positive) : Q := ((if minus then - Z.of_N v else Z.of_N v)%Z # d)%Q.
