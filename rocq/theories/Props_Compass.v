(** C73, directions: the name of the octant is told with the degrees. *)
From Coq Require Import NArith List String.
From Verif Require Import Prim Values Explain SpecShown SpecCompass Pf_Compass.
Local Open Scope string_scope.
Local Open Scope N_scope.

Theorem C73_degrees_named :
  forall (d : Direction) (exactly : bool) (s : string), dirType d = DT_VALUE_DEGREES -> dirDegrees d <= 360 ->
    explainDirection d exactly = Ok s ->
    exists n w, whole n (dirDegrees d) /\ named exactly (dirDegrees d) w /\ s = n ++ " degrees(" ++ w ++ ")".
Proof. exact degrees_named. Qed.
Print Assumptions C73_degrees_named.
Theorem C73_point_named :
  forall (d : Direction) (exactly : bool) (s : string), dirType d = DT_VALUE_CARDINAL -> dirDegrees d <= 360 ->
    explainDirection d exactly = Ok s -> named exactly (dirDegrees d) s.
Proof. exact point_named. Qed.
Print Assumptions C73_point_named.

Example C73_direction_nonvacuous :
  explainDirection (mkDir 180 DT_VALUE_DEGREES) true = Ok "180 degrees(true south)"
  /\ explainDirection (mkDir 190 DT_VALUE_DEGREES) true = Ok "190 degrees(south)"
  /\ explainDirection (mkDir 315 DT_VALUE_CARDINAL) false = Ok "northwest".
Proof. repeat split; vm_compute; reflexivity. Qed.
