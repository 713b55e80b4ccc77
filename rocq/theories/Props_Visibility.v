(** C39, C51: visibility groups. *)
From Verif Require Import Prim Regex Float Values Weather Groups1 Groups2 Groups3 Groups4 Parser.
From Verif Require Import SpecText SpecNumeral SpecMiles SpecDirection SpecNearby SpecTexts SpecReach SpecBuilt SpecAssembled SpecVisibility.
From Verif Require Import Pf_Visibility.
Local Open Scope string_scope.

(** However the group was put together from words *)
Theorem C39_fields_match_type :
  forall (part : ReportPart) (words : list string) (g : VisibilityGroup), Built part words (GVisibility g) -> fields_match_type g.
Proof. exact built_fields. Qed.
Print Assumptions C39_fields_match_type.
Theorem C39_fields_match_type_report :
  forall (char_signed : bool) (report : string) (limit : nat) (r : ParseResult),
    parse char_signed report limit = Ok r ->
    forall (g : VisibilityGroup) (part : ReportPart) (raw : string),
      In (mkGroupInfo (GVisibility g) part raw) (pr_groups r) -> raw <> "" -> fields_match_type g.
Proof. exact result_fields. Qed.
Print Assumptions C39_fields_match_type_report.
(** Not so for an object which [append] declared invalid; the parser throws such objects away. *)
Theorem C39_invalidated_refuted : exists g, Reachable (GVisibility g) /\ ~ fields_match_type g.
Proof. exact invalidated_fields. Qed.
Print Assumptions C39_invalidated_refuted.

(** Exactly the word sequences of [Visibility] make a visibility group that may end there, and the
    group tells what they say. *)
Theorem C51_visibility :
  forall (part : ReportPart) (now : option MetafTime) (words : list string),
    (forall g, Assembled part now words (GVisibility g) -> may_end part (GVisibility g) -> Visibility part words (seen_by g))
    /\ (forall v, Visibility part words v ->
         exists g, Assembled part now words (GVisibility g) /\ may_end part (GVisibility g) /\ seen_by g = v).
Proof. exact visibility_words. Qed.
Print Assumptions C51_visibility.
(** In a report *)
Theorem C51_visibility_report :
  forall (char_signed : bool) (report : string) (limit : nat) (r : ParseResult),
    parse char_signed report limit = Ok r ->
    forall (g : VisibilityGroup) (part : ReportPart) (raw : string),
      In (mkGroupInfo (GVisibility g) part raw) (pr_groups r) -> raw <> "" ->
      Visibility part (words_of raw) (seen_by g).
Proof. exact result_visibility. Qed.
Print Assumptions C51_visibility_report.

Example C51_nonvacuous : exists r g h k,
  parse true "METAR KJFK 280551Z 24010KT 1 1/2SM R04R/3000V6000FT/U BR OVC002 12/11 A3000 RMK VIS NW-NE 1/2V2 TWR VIS 3/4 AO2=" 100 = Ok r
  /\ In (mkGroupInfo (GVisibility g) RP_METAR "1 1/2SM") (pr_groups r)
  /\ In (mkGroupInfo (GVisibility h) RP_METAR "R04R/3000V6000FT/U") (pr_groups r)
  /\ In (mkGroupInfo (GVisibility k) RP_RMK "VIS NW-NE 1/2V2") (pr_groups r)
  /\ seen_by g = seen Around (mkDist DM_NONE (Some 15000%N) STATUTE_MILES)
  /\ s_maximum (seen_by h) = mkDist DM_NONE (Some 6000%N) FEET /\ s_trend (seen_by h) = Vt_UPWARD
  /\ s_minimum (seen_by k) = mkDist DM_NONE (Some 5000%N) STATUTE_MILES
  /\ s_sector (seen_by k) = Some (mkDir 315 DT_VALUE_CARDINAL, mkDir 45 DT_VALUE_CARDINAL).
Proof. exact visibility_example. Qed.
