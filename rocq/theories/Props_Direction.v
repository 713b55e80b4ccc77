(** C28, C29: directions and sectors. *)
From Verif Require Import Prim Regex Float Values SpecDirection.
From Verif Require Import Pf_Values6 Pf_Values9.
Local Open Scope string_scope.
Local Open Scope N_scope.

(** ** C28 *)

(** A direction is in the octant from which it is less than 22.5 degrees away. *)
Theorem C28_octant :
  forall (d : Direction) (o : Cardinal * N),
    Direction_isValue d = true -> dirDegrees d <= 360 -> In o octants ->
    (Direction_cardinal d false = fst o <-> 2 * angle (dirDegrees d) (snd o) < 45).
Proof. exact cardinal_octant. Qed.
Print Assumptions C28_octant.
Theorem C28_above_360 :
  forall (d : Direction) (trueDirections : bool),
    Direction_isValue d = true -> 360 < dirDegrees d -> Direction_cardinal d trueDirections = Cd_NOT_REPORTED.
Proof. exact cardinal_too_far. Qed.
Print Assumptions C28_above_360.
Theorem C28_true_directions :
  forall d : Direction, Direction_isValue d = true ->
    Direction_cardinal d true =
      (if dirDegrees d =? 360 then Cd_TRUE_N else
       if dirDegrees d =? 90 then Cd_TRUE_E else
       if dirDegrees d =? 180 then Cd_TRUE_S else
       if dirDegrees d =? 270 then Cd_TRUE_W else
       Direction_cardinal d false).
Proof. exact cardinal_true. Qed.
Print Assumptions C28_true_directions.
(** The name of an octant is decoded to that octant and to the direction in its middle; the other
    names have no degrees. *)
Theorem C28_names :
  forall (s : string) (enableOhdAlqds enableUnknown : bool) (d : Direction),
    Direction_fromCardinalString s enableOhdAlqds enableUnknown = Some d ->
    (exists o, In (s, o) octant_names /\ Direction_cardinal d false = fst o /\ Direction_degrees d = Some (snd o))
    \/ (s = "NDV" /\ Direction_cardinal d false = Cd_NDV /\ Direction_degrees d = None)
    \/ (s = "OHD" /\ enableOhdAlqds = true /\ Direction_cardinal d false = Cd_OHD /\ Direction_degrees d = None)
    \/ (s = "ALQDS" /\ enableOhdAlqds = true /\ Direction_cardinal d false = Cd_ALQDS /\ Direction_degrees d = None)
    \/ (s = "UNKNOWN" /\ enableUnknown = true /\ Direction_cardinal d false = Cd_UNKNOWN
        /\ Direction_degrees d = None).
Proof. exact cardinal_names. Qed.
Print Assumptions C28_names.
Theorem C28_names_accepted :
  forall (s : string) (o : Cardinal * N) (enableOhdAlqds enableUnknown : bool),
    In (s, o) octant_names -> exists d, Direction_fromCardinalString s enableOhdAlqds enableUnknown = Some d.
Proof. exact names_accepted. Qed.
Print Assumptions C28_names_accepted.
Example C28_nonvacuous :
  Direction_fromDegreesString "020" = Ok (Some (mkDir 20 DT_VALUE_DEGREES))
  /\ Direction_cardinal (mkDir 20 DT_VALUE_DEGREES) true = Cd_N
  /\ Direction_cardinal (mkDir 30 DT_VALUE_DEGREES) true = Cd_NE
  /\ Direction_cardinal (mkDir 370 DT_VALUE_DEGREES) true = Cd_NOT_REPORTED.
Proof. repeat split; vm_compute; reflexivity. Qed.

(** ** C29 *)

(** Between octants the sector is [clockwise], in the order of turning clockwise. *)
Theorem C29_sector :
  forall (i j : nat) (a b : Direction),
    (i < 8)%nat -> (j < 8)%nat ->
    Direction_cardinal a false = fst (octant i) -> Direction_cardinal b false = fst (octant j) ->
    Direction_sectorCardinalDirToVector a b =
      Ok (map (fun o => mkDir (snd o) DT_VALUE_CARDINAL) (clockwise i j)).
Proof. exact sectors. Qed.
Print Assumptions C29_sector.
Theorem C29_sector_shape :
  forall i j : nat, (i < 8)%nat -> (j < 8)%nat ->
    NoDup (clockwise i j) /\ (length (clockwise i j) <= 8)%nat
    /\ hd (Cd_N, 0) (clockwise i j) = octant i /\ last (clockwise i j) (Cd_N, 0) = octant j.
Proof. exact clockwise_shape. Qed.
Print Assumptions C29_sector_shape.
Example C29_nonvacuous :
  Direction_sectorCardinalDirToVector (mkDir 315 DT_VALUE_CARDINAL) (mkDir 90 DT_VALUE_CARDINAL)
  = Ok [mkDir 315 DT_VALUE_CARDINAL; mkDir 360 DT_VALUE_CARDINAL; mkDir 45 DT_VALUE_CARDINAL; mkDir 90 DT_VALUE_CARDINAL].
Proof. vm_compute; reflexivity. Qed.
(** With an unknown direction at one end and an octant at the other the loop never ends. *)
Theorem C29_unknown_never_ends_refuted :
  forall (iterations : nat) (a b : Direction),
    (Direction_cardinal a false = Cd_UNKNOWN /\ In (Direction_cardinal b false) (map fst octants)
     \/ Direction_cardinal b false = Cd_UNKNOWN /\ In (Direction_cardinal a false) (map fst octants)) ->
    sectorCardinalDirToVector_fuel iterations a b = Bad Fuel.
Proof. exact sector_unknown. Qed.
Print Assumptions C29_unknown_never_ends_refuted.
Example C29_unknown_never_ends_refuted_nonvacuous :
  Direction_fromCardinalString "UNKNOWN" false true = Some (mkDir 0 DT_UNKNOWN)
  /\ Direction_cardinal (mkDir 0 DT_UNKNOWN) false = Cd_UNKNOWN
  /\ In (Direction_cardinal (mkDir 90 DT_VALUE_CARDINAL) false) (map fst octants).
Proof. repeat split; vm_compute; auto. Qed.
