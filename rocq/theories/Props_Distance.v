(** C102: the distances on the page examples/shellfiles/summary_shell.html. *)
From Coq Require Import String Reals ZArith.
From Verif Require Import Prim Float Summary Page SpecSumNumbers SpecPage SpecStations SpecFigures Distance SpecDistance Pf_Distance.
Local Open Scope string_scope.
Local Open Scope R_scope.

(** *** C102: the distance shown is the great-circle distance *)
(** It is right to half a kilometer, or half a mile, and the ten-thousandth part, for an aerodrome with latitude and longitude.
    Missing for the full property: aerodromes without. *)
Theorem C102_distance_partial :
  forall (number : string -> option R) (pos : R * R) (lat lon : string) (lat1 lon1 km : R) (imperial : bool),
    number lat = Some lat1 -> number lon = Some lon1 -> great_circle (lat1, lon1) pos km ->
    exists n whole, signed_whole whole n
      /\ distance_text imperial (station_distance number pos (Some lat) (Some lon)) = whole ++ (if imperial then " miles" else " km")
      /\ Rabs (IZR n * (if imperial then mile else 1) - km) <= / 2 * (if imperial then mile else 1) + km / 10000.
Proof. exact distance_shown. Qed.
Print Assumptions C102_distance_partial.
(** Two points have one great-circle distance. *)
Theorem C102_great_circle :
  forall p q : R * R, exists! km, great_circle p q km.
Proof. exact great_circle_exists. Qed.
Print Assumptions C102_great_circle.
(** The position from which the distances are measured is that of the device to half a hundredth of a degree. *)
Theorem C102_position :
  forall pos : R * R, Rabs (fst (rounded_position pos) - fst pos) <= / 200 /\ Rabs (snd (rounded_position pos) - snd pos) <= / 200.
Proof. exact position_near. Qed.
Print Assumptions C102_position.
Example C102_nonvacuous :
  great_circle (0, 90) (0, 0) (earth_radius * (PI / 2))
  /\ forall number, number "0" = Some 0 -> number "90.00" = Some 90 ->
     distance_text false (station_distance number (0, 0) (Some "0") (Some "90.00")) = "10007 km".
Proof. exact (conj quarter quarter_text). Qed.
(** An aerodrome whose latitude is not told is said to be "NaN km away" instead of having no distance. *)
Theorem C102_unknown_refuted :
  exists metars,
  forall (pow : flt -> flt -> flt), pow_tame pow ->
  forall number pos clock sgn year month day imperial,
    exists d item, addStationNames (AWCdataToMap (station_distance number pos) metars nil) nil = cons (Some "ZZZZ", d) nil
      /\ displayStations clock pow sgn (distance_text imperial) year month day imperial (cons (Some "ZZZZ", d) nil) = (cons item nil, None)
      /\ contains (element "div" "weatherstation" ("NAME UNKNOWN (NaN " ++ (if imperial then "miles" else "km") ++ " away)")) item.
Proof. exact no_latitude. Qed.
Print Assumptions C102_unknown_refuted.
