(** Specification for C70: texts of distances in all units. *)
From Coq Require Import String List ZArith NArith.
From Verif Require Import Prim Float Values SpecUnits SpecSumNumbers SpecShown.
Import ListNotations.
Local Open Scope string_scope.

(** A whole number with or without a minus sign *)
Definition signed_whole (s : string) (z : Z) : Prop :=
  exists a v, whole a v /\ (s = a /\ z = Z.of_N v \/ s = "-" ++ a /\ z = (- Z.of_N v)%Z).

(** Fractions of a mile, with the number of sixteenths *)
Definition mile_fractions : list (string * N) :=
  [("1/16", 1); ("1/8", 2); ("3/16", 3); ("1/4", 4); ("5/16", 5); ("3/8", 6); ("1/2", 8); ("5/8", 10); ("3/4", 12); ("7/8", 14)]%N.
(** The text of [r] sixteenths of a mile: whole miles, a fraction, or whole miles, a space and a fraction *)
Definition mile_text (s : string) (r : N) : Prop :=
  (exists i, whole s i /\ r = (16 * i)%N)
  \/ (exists k, In (s, k) mile_fractions /\ r = k)
  \/ (exists a i f k, whole a i /\ In (f, k) mile_fractions /\ s = a ++ " " ++ f /\ r = (16 * i + k)%N).

(** The distance in a unit: the value the API returns for that unit, in miles as it returns miles, otherwise without decimals *)
Definition in_unit (d : Distance) (u : DistUnit) (s : string) : Prop :=
  exists a, s = a ++ " " ++ distance_unit_name u
    /\ match u with
       | STATUTE_MILES => exists i f, Distance_miles d = Ok (Some (i, f)) /\ mile_text a (16 * i + sixteenths_of f)
       | _ => exists z, whole_of (Distance_toUnit d u) z /\ signed_whole a z
       end.
Definition other_units (u : DistUnit) : DistUnit * DistUnit :=
  match u with METERS => (STATUTE_MILES, FEET) | STATUTE_MILES => (METERS, FEET) | FEET => (METERS, STATUTE_MILES) end.
