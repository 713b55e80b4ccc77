(** Specification for C49 and the following: what the texts of distances, speeds, runways and
    directions say. *)
From Coq Require Import NArith List String.
From Verif Require Import Prim Values SpecNumeral SpecDirection.
Import ListNotations.
Local Open Scope string_scope.
Local Open Scope N_scope.

(** Less than and more than *)
Definition limits : list (string * DistModifier) := [("", DM_NONE); ("M", DM_LESS_THAN); ("P", DM_MORE_THAN)].
(** Four digits; 9999 stands for ten kilometres or more. *)
Definition Meters (s : string) (d : Distance) : Prop :=
  s = "////" /\ d = mkDist DM_NONE None METERS
  \/ s = "9999" /\ d = mkDist DM_MORE_THAN (Some 10000) METERS
  \/ exists v, numeral 4 s v /\ v <> 9999 /\ d = mkDist DM_NONE (Some v) METERS.
(** Hundreds of feet *)
Definition Height (s : string) (d : Distance) : Prop :=
  s = "///" /\ d = mkDist DM_NONE None FEET
  \/ exists v, numeral 3 s v /\ d = mkDist DM_NONE (Some (100 * v)) FEET.
(** Runway visual range *)
Definition Visual_range (feet : bool) (s : string) (d : Distance) : Prop :=
  s = "////" /\ d = mkDist DM_NONE None (if feet then FEET else METERS)
  \/ exists prefix m n v, s = prefix ++ n /\ In (prefix, m) limits /\ numeral 4 n v
       /\ d = mkDist m (Some v) (if feet then FEET else METERS).
(** Base in hundreds of feet, thickness in thousands of feet *)
Definition Layer (s : string) (base top : Distance) : Prop :=
  exists h t b depth, s = h ++ t /\ numeral 3 h b /\ numeral 1 t depth
    /\ base = mkDist DM_NONE (Some (100 * b)) FEET
    /\ top = mkDist DM_NONE (Some (100 * b + 1000 * depth)) FEET.
Definition Kilometers (s : string) (d : Distance) : Prop :=
  exists n v, s = n ++ "KM" /\ (numeral 1 n v \/ numeral 2 n v) /\ d = mkDist DM_NONE (Some (1000 * v)) METERS.
(** Two digits, or three if the number is not less than 100 *)
Definition Speed_text (u : SpeedUnit) (s : string) (t : Speed) : Prop :=
  (s = "" \/ s = "//") /\ t = mkSpeed None KNOTS
  \/ (exists v, numeral 2 s v /\ t = mkSpeed (Some v) u)
  \/ exists v, numeral 3 s v /\ 100 <= v /\ t = mkSpeed (Some v) u.
Definition speed_units : list (string * SpeedUnit) :=
  [("KT", KNOTS); ("MPS", METERS_PER_SECOND); ("KMH", KILOMETERS_PER_HOUR)].
(** The letter R, or RWY where allowed, two digits, and the designator of parallel runways *)
Definition Runway_text (rwy : bool) (s : string) (r : Runway) : Prop :=
  exists prefix d suffix, s = prefix ++ d ++ suffix
    /\ (prefix = "R" \/ prefix = "RWY" /\ rwy = true)
    /\ numeral 2 d (rNumber r)
    /\ In (suffix, rDesignator r) [("", Rw_NONE); ("L", Rw_LEFT); ("C", Rw_CENTER); ("R", Rw_RIGHT)].
(** Degrees, a multiple of ten *)
Definition Degrees (s : string) (d : Direction) : Prop :=
  s = "///" /\ d = mkDir 0 DT_NOT_REPORTED
  \/ s = "VRB" /\ d = mkDir 0 DT_VARIABLE
  \/ exists v, numeral 3 s v /\ v mod 10 = 0 /\ d = mkDir v DT_VALUE_DEGREES.
