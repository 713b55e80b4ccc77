(** Numbers in the texts of explanations. *)
From Coq Require Import String NArith QArith Qabs.
From Verif Require Import Prim Float Values SpecDecimal SpecNumeral SpecReal.
Local Open Scope string_scope.

(** The text is a number with [d] digits after the decimal point: [n] of the last digit's units, after a minus sign if
    [minus] *)
Definition decimals (d : nat) (s : string) (minus : bool) (n : N) : Prop :=
  exists a b i f, s = (if minus then "-" else "") ++ a ++ "." ++ b /\ a <> "" /\ decimal a = Some i /\ numeral d b f
    /\ n = (i * 10 ^ N.of_nat d + f)%N.

(** A whole number without decimals *)
Definition whole (s : string) (v : N) : Prop := s <> "" /\ decimal s = Some v.
(** Names of the units *)
Definition speed_unit_name (u : SpeedUnit) : string :=
  match u with KNOTS => "knots" | METERS_PER_SECOND => "m/s" | KILOMETERS_PER_HOUR => "km/h" | MILES_PER_HOUR => "mph" end.
Definition distance_unit_name (u : DistUnit) : string :=
  match u with METERS => "meters" | STATUTE_MILES => "statute miles" | FEET => "feet" end.
(** Signs before a distance, in HTML *)
Definition limit_sign (m : DistModifier) : string :=
  match m with DM_LESS_THAN => "&lt;" | DM_MORE_THAN => "&gt;" | _ => "" end.
Definition designator_text (d : RwDesignator) : string :=
  match d with Rw_NONE => "" | Rw_LEFT => " LEFT" | Rw_CENTER => " CENTER" | Rw_RIGHT => " RIGHT" end.

(** The text is the number [x] with [d] decimals, cut off and not rounded: it is not further from zero than [x], by more
    than half of the sixth decimal, and less than one unit of the last digit nearer to zero *)
Definition shown_as (d : nat) (text : string) (x : flt) : Prop :=
  forall q, flt_value x = Some q -> exists minus n, decimals d text minus n
    /\ ((q < 0)%Q -> minus = true) /\ (minus = true -> (q <= 0)%Q)
    /\ (parts n (10 ^ Pos.of_nat d) - (1 # 2000000) <= Qabs q)%Q
    /\ (Qabs q < parts n (10 ^ Pos.of_nat d) + (1 # 10 ^ Pos.of_nat d))%Q.
