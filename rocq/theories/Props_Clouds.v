(** C52: cloud groups, cloud type groups and groups of low, middle and high clouds. *)
From Verif Require Import Prim Regex Float Values Weather Groups1 Groups2 Groups3 Groups4 Parser.
From Verif Require Import SpecText SpecNumeral SpecCloud SpecDirection SpecNearby SpecTexts SpecAssembled SpecClouds.
From Verif Require Import Pf_Clouds Pf_CloudTypes.
Local Open Scope string_scope.

(** Exactly the word sequences of [Clouds] make a cloud group that no next word can invalidate, and
    the group tells what they say. *)
Theorem C52_clouds :
  forall (part : ReportPart) (now : option MetafTime) (words : list string),
    (forall g, Assembled part now words (GCloud g) -> settled part (GCloud g) -> Clouds part words (sky_of g))
    /\ (forall v, Clouds part words v ->
         exists g, Assembled part now words (GCloud g) /\ settled part (GCloud g) /\ sky_of g = v).
Proof. exact cloud_words. Qed.
Print Assumptions C52_clouds.
(** Codes of low, middle and high clouds *)
Theorem C52_low_middle_high :
  forall (part : ReportPart) (now : option MetafTime) (words : list string) (g : LowMidHighCloudGroup),
    Assembled part now words (GLowMidHighCloud g) <-> Sky_codes part words g.
Proof. exact codes_words. Qed.
Print Assumptions C52_low_middle_high.
(** Cloud types *)
Theorem C52_cloud_types :
  forall (part : ReportPart) (now : option MetafTime) (words : list string) (l : list CloudType),
    (exists g, Assembled part now words (GCloudTypes g) /\ CloudTypesGroup_cloudTypes g = l) <-> Cloud_types part words l.
Proof. exact types_words. Qed.
Print Assumptions C52_cloud_types.

(** In a report *)
Theorem C52_clouds_report :
  forall (char_signed : bool) (report : string) (limit : nat) (r : ParseResult),
    parse char_signed report limit = Ok r ->
    forall (g : CloudGroup) (part : ReportPart) (raw : string),
      In (mkGroupInfo (GCloud g) part raw) (pr_groups r) -> raw <> "" -> Clouds part (words_of raw) (sky_of g).
Proof. exact result_cloud. Qed.
Print Assumptions C52_clouds_report.
Theorem C52_low_middle_high_report :
  forall (char_signed : bool) (report : string) (limit : nat) (r : ParseResult),
    parse char_signed report limit = Ok r ->
    forall (g : LowMidHighCloudGroup) (part : ReportPart) (raw : string),
      In (mkGroupInfo (GLowMidHighCloud g) part raw) (pr_groups r) -> raw <> "" -> Sky_codes part (words_of raw) g.
Proof. exact result_codes. Qed.
Print Assumptions C52_low_middle_high_report.
Theorem C52_cloud_types_report :
  forall (char_signed : bool) (report : string) (limit : nat) (r : ParseResult),
    parse char_signed report limit = Ok r ->
    forall (g : CloudTypesGroup) (part : ReportPart) (raw : string),
      In (mkGroupInfo (GCloudTypes g) part raw) (pr_groups r) -> raw <> "" ->
      Cloud_types part (words_of raw) (CloudTypesGroup_cloudTypes g).
Proof. exact result_types. Qed.
Print Assumptions C52_cloud_types_report.

Example C52_nonvacuous : exists r g h k l m,
  parse true "METAR KJFK 280551Z 24010KT 9999 BKN012CB 12/11 A3000 RMK CIG 005V010 RWY04R FEW014 V SCT 8/5/1 8NS070 3CI200=" 100 = Ok r
  /\ In (mkGroupInfo (GCloud g) RP_METAR "BKN012CB") (pr_groups r)
  /\ In (mkGroupInfo (GCloud h) RP_RMK "CIG 005V010 RWY04R") (pr_groups r)
  /\ In (mkGroupInfo (GCloud k) RP_RMK "FEW014 V SCT") (pr_groups r)
  /\ In (mkGroupInfo (GLowMidHighCloud m) RP_RMK "8/5/1") (pr_groups r)
  /\ In (mkGroupInfo (GCloudTypes l) RP_RMK "8NS070 3CI200") (pr_groups r)
  /\ k_cloud (sky_of g) = Some (mkCloudType Ct_CUMULONIMBUS (mkDist DM_NONE (Some 1200%N) FEET) 7)
  /\ k_maximum (sky_of h) = mkDist DM_NONE (Some 1000%N) FEET /\ k_runway (sky_of h) = Some (mkRunway 4 Rw_RIGHT)
  /\ k_amount (sky_of k) = Am_VARIABLE_FEW_SCATTERED
  /\ List.length (CloudTypesGroup_cloudTypes l) = 2.
Proof. exact clouds_example. Qed.
