(** Specification for C23: dates in order. *)
From Coq Require Import NArith.
From Verif Require Import Values.
Local Open Scope N_scope.

(** Not later than *)
Definition date_le (a b : Date) : Prop :=
  date_year a < date_year b
  \/ date_year a = date_year b
     /\ (date_month a < date_month b \/ date_month a = date_month b /\ date_day a <= date_day b).
Definition month_ok (d : Date) : Prop := 1 <= date_month d <= 12.
(** Minutes since the beginning of the day *)
Definition minutes (t : MetafTime) : N := 60 * hourValue t + minuteValue t.
