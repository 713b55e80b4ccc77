(** C72: no reported value is left out of an explanation. *)
From Coq Require Import NArith List String.
From Verif Require Import Prim Float Values Weather Groups1 Groups2 Groups3 Groups4 Parser Format Explain SpecExplain SpecKinds SpecFacts.
From Verif Require Import Pf_ExFacts2 Pf_ExOmits.
Import ListNotations.
Local Open Scope string_scope.

(** Every value which a group of a report returns is told by its explanation, right after a label which says
    what it is, with the exceptions of [left_out]. *)
Theorem C72_values_told_partial :
  forall (pow : flt -> flt -> flt) (sgn : bool) (report : string) (limit : nat) (r : ParseResult), parse sgn report limit = Ok r ->
    forall (g : Group) (part : ReportPart) (raw : string), In (mkGroupInfo g part raw) (pr_groups r) -> raw <> "" ->
    forall (s : string), Visitor_visit (Ok "") (VisitorExplain pow) g part raw = Ok s ->
    forall (labels : list string) (x : fact), In (labels, x) (facts g) -> said_otherwise g x \/ left_out g x \/ tells_as s labels x.
Proof. exact every_value_told. Qed.
Print Assumptions C72_values_told_partial.
Example C72_nonvacuous :
  exists g, facts (GWind g) =
    [(["Wind direction: "], Bearing (mkDir 240 DT_VALUE_DEGREES)); (["Wind speed: "], Velocity (mkSpeed (Some 12%N) KNOTS));
     (["Gust speed: "], Velocity (mkSpeed (Some 25%N) KNOTS)); (["sector from "], Bearing (mkDir 200 DT_VALUE_DEGREES));
     (["clockwise to "], Bearing (mkDir 280 DT_VALUE_DEGREES))]
  /\ nth_group 3 "METAR EGLL 170950Z 24012G25KT 200V280" = Some (mkGroupInfo (GWind g) RP_METAR "24012G25KT 200V280").
Proof. exact facts_example. Qed.

(** The exceptions: extent and depth of the deposits on a runway which is reported as clear and dry, *)
Theorem C72_clear_and_dry_refuted :
  omits "METAR EGLL 170950Z R10/015093" "R10/015093" (Words ["&lt;10 percent"])
  /\ omits "METAR EGLL 170950Z R10/015093" "R10/015093" (Fall (mkPrecip (Some (S754_finite false 13107200 (-18))) MM)).
Proof. exact (conj extent_omitted depth_omitted). Qed.
Print Assumptions C72_clear_and_dry_refuted.
(** the state of a runway which is not operational, *)
Theorem C72_not_operational_refuted :
  omits "METAR EGLL 170950Z R10/819992" "R10/819992" (Words ["compacted"; "rolled snow"])
  /\ omits "METAR EGLL 170950Z R10/819992" "R10/819992" (Grip (mkSf Sf_BRAKING_ACTION_REPORTED 26)).
Proof. exact (conj deposits_omitted friction_omitted). Qed.
Print Assumptions C72_not_operational_refuted.
(** the trend of a runway visual range which names no runway, *)
Theorem C72_trend_refuted : omits "METAR EGLL 170950Z R///////U" "R///////U" (Words ["upward"]).
Proof. exact trend_omitted. Qed.
Print Assumptions C72_trend_refuted.
(** the sector in which there is no visibility, *)
Theorem C72_sector_refuted : omits "METAR EGLL 170950Z RMK VISNO N-E" "VISNO N-E" (Point (mkDir 45 DT_VALUE_CARDINAL)).
Proof. exact sector_omitted. Qed.
Print Assumptions C72_sector_refuted.
(** and the time at which a phenomenon with a text of its own began or ended. *)
Theorem C72_event_time_refuted : omits "METAR EGLL 170950Z RMK UPB05" "UPB05" (Time (mkTime None 9 5)).
Proof. exact began_omitted. Qed.
Print Assumptions C72_event_time_refuted.
