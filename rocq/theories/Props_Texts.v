(** C49: distances, speeds, runways and directions. *)
From Verif Require Import Prim Regex Float Values SpecNumeral SpecDirection SpecTexts.
From Verif Require Import Pf_Texts.
Local Open Scope string_scope.

Theorem C49_meters :
  forall (s : string) (d : Distance), Distance_fromMeterString s = Ok (Some d) <-> Meters s d.
Proof. exact meters_text. Qed.
Print Assumptions C49_meters.
Theorem C49_height :
  forall (s : string) (d : Distance), Distance_fromHeightString s = Ok (Some d) <-> Height s d.
Proof. exact height_text. Qed.
Print Assumptions C49_height.
Theorem C49_runway_visual_range :
  forall (s : string) (feet : bool) (d : Distance), Distance_fromRvrString s feet = Ok (Some d) <-> Visual_range feet s d.
Proof. exact rvr_text. Qed.
Print Assumptions C49_runway_visual_range.
Theorem C49_layer :
  forall (s : string) (base top : Distance), Distance_fromLayerString s = Ok (Some (base, top)) <-> Layer s base top.
Proof. exact layer_text. Qed.
Print Assumptions C49_layer.
Theorem C49_kilometers :
  forall (s : string) (d : Distance), Distance_fromKmString s = Ok (Some d) <-> Kilometers s d.
Proof. exact km_text. Qed.
Print Assumptions C49_kilometers.
Theorem C49_speed :
  forall (s : string) (u : SpeedUnit) (t : Speed), Speed_fromString s u = Ok (Some t) <-> Speed_text u s t.
Proof. exact speed_text. Qed.
Print Assumptions C49_speed.
Theorem C49_speed_unit :
  forall (s : string) (u : SpeedUnit), Speed_unitFromString s = Some u <-> In (s, u) speed_units.
Proof. exact speed_unit_text. Qed.
Print Assumptions C49_speed_unit.
Theorem C49_runway :
  forall (s : string) (rwy : bool) (r : Runway), Runway_fromString s rwy = Ok (Some r) <-> Runway_text rwy s r.
Proof. exact runway_text. Qed.
Print Assumptions C49_runway.
Theorem C49_degrees :
  forall (s : string) (d : Direction), Direction_fromDegreesString s = Ok (Some d) <-> Degrees s d.
Proof. exact degrees_text. Qed.
Print Assumptions C49_degrees.

Example C49_nonvacuous :
  Distance_fromMeterString "0350" = Ok (Some (mkDist DM_NONE (Some 350%N) METERS))
  /\ Distance_fromMeterString "9999" = Ok (Some (mkDist DM_MORE_THAN (Some 10000%N) METERS))
  /\ Distance_fromHeightString "045" = Ok (Some (mkDist DM_NONE (Some 4500%N) FEET))
  /\ Distance_fromRvrString "M0600" true = Ok (Some (mkDist DM_LESS_THAN (Some 600%N) FEET))
  /\ Distance_fromLayerString "0903" = Ok (Some (mkDist DM_NONE (Some 9000%N) FEET, mkDist DM_NONE (Some 12000%N) FEET))
  /\ Distance_fromKmString "12KM" = Ok (Some (mkDist DM_NONE (Some 12000%N) METERS))
  /\ Speed_fromString "115" METERS_PER_SECOND = Ok (Some (mkSpeed (Some 115%N) METERS_PER_SECOND))
  /\ Speed_fromString "015" KNOTS = Ok None
  /\ Runway_fromString "RWY21L" true = Ok (Some (mkRunway 21 Rw_LEFT))
  /\ Direction_fromDegreesString "230" = Ok (Some (mkDir 230 DT_VALUE_DEGREES))
  /\ Direction_fromDegreesString "235" = Ok None.
Proof. repeat split; vm_compute; reflexivity. Qed.
