(** Specification for C70: numbers shown with up to six digits, possibly with decimals or a power of ten. *)
From Coq Require Import String ZArith NArith QArith Qabs.
From Verif Require Import Prim Float SpecDecimal SpecReal SpecShown.
Local Open Scope string_scope.

(** Ten to the power [z] *)
Definition ten_to (z : Z) : Q := Qpower (10 # 1) z.
(** Digits, and after a decimal point [k] further digits if [k] is not zero, of which the last is not zero; all the
    digits together make up [n] *)
Definition with_fraction (s : string) (n : N) (k : nat) : Prop :=
  exists a b, a <> "" /\ decimal (a ++ b) = Some n /\ String.length b = k /\ (forall c, b <> c ++ "0")
    /\ s = match b with "" => a | _ => a ++ "." ++ b end.
(** [n] with its last [k] digits after the decimal point *)
Definition fraction (n : N) (k : nat) : Q := (inject_Z (Z.of_N n) * ten_to (- Z.of_nat k))%Q.
(** The text stands for the number [v]: plain from 0.0001 up to a million, otherwise one digit before the decimal point and
    a power of ten *)
Definition stands_for (s : string) (v : Q) : Prop :=
  exists m n k, with_fraction m n k
    /\ ((ten_to (-4) <= v)%Q /\ (v < ten_to 6)%Q /\ s = m /\ (v == fraction n k)%Q
        \/ ((v < ten_to (-4))%Q \/ (ten_to 6 <= v)%Q) /\ (1 <= fraction n k)%Q /\ (fraction n k < 10)%Q
           /\ exists t e, whole t e
              /\ (s = m ++ "e+" ++ t /\ (v == fraction n k * ten_to (Z.of_N e))%Q
                  \/ s = m ++ "e-" ++ t /\ (v == fraction n k * ten_to (- Z.of_N e))%Q)).
(** [v] is [q] rounded to the nearest number of six digits: [e] is the power of ten of the first digit *)
Definition six_digits (v q : Q) : Prop :=
  exists e, (ten_to e <= q)%Q /\ (q < ten_to (e + 1))%Q
    /\ (Qabs (v - q) <= (1 # 2) * ten_to (e - 5))%Q
    /\ forall w, (q == inject_Z w * ten_to (e - 5))%Q -> (v == q)%Q.
From Verif Require Import Values Weather Groups1 Groups2 Groups3 Groups4 Parser.
(** The texts before and after the number, for the groups which show a number in this way *)
Definition number_texts (t : MsType) : option (string * string) :=
  match t with
  | Ms_SUNSHINE_DURATION_MINUTES => Some ("Duration of sunshine that occurred the previous calendar day is ", " minutes")
  | Ms_DENSITY_ALTITUDE => Some ("Density altitude  is ", " feet")
  | Ms_HAILSTONE_SIZE => Some ("Largest hailstone size is ", " inches")
  | _ => None
  end.
