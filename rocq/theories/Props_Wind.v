(** C50: wind groups. *)
From Verif Require Import Prim Regex Float Values Weather Groups1 Groups2 Groups3 Groups4 Parser.
From Verif Require Import SpecText SpecNumeral SpecTrend SpecTexts SpecReach SpecAssembled SpecWind.
From Verif Require Import Pf_WindWords.
Local Open Scope string_scope.

(** Exactly the word sequences of [Wind] make a wind group that does not wait for more words, and
    the group tells what they say. *)
Theorem C50_wind :
  forall (part : ReportPart) (now : option MetafTime) (words : list string),
    (forall g, Assembled part now words (GWind g) -> settled part (GWind g) -> Wind part now words (told_by g))
    /\ (forall v, Wind part now words v ->
         exists g, Assembled part now words (GWind g) /\ settled part (GWind g) /\ told_by g = v).
Proof. exact wind_words. Qed.
Print Assumptions C50_wind.
(** In a report, with the report time of its metadata *)
Theorem C50_wind_report :
  forall (char_signed : bool) (report : string) (limit : nat) (r : ParseResult),
    parse char_signed report limit = Ok r ->
    forall (g : WindGroup) (part : ReportPart) (raw : string),
      In (mkGroupInfo (GWind g) part raw) (pr_groups r) -> raw <> "" ->
      Wind part (md_reportTime (pr_metadata r)) (words_of raw) (told_by g).
Proof. exact result_wind. Qed.
Print Assumptions C50_wind_report.

Example C50_nonvacuous : exists r g h k,
  parse true "METAR KJFK 280551Z 24010G25KT 210V270 10SM CLR 12/03 A3000 RMK PK WND 24031/47 WSHFT 0430 FROPA=" 100 = Ok r
  /\ In (mkGroupInfo (GWind g) RP_METAR "24010G25KT 210V270") (pr_groups r)
  /\ In (mkGroupInfo (GWind h) RP_RMK "PK WND 24031/47") (pr_groups r)
  /\ In (mkGroupInfo (GWind k) RP_RMK "WSHFT 0430 FROPA") (pr_groups r)
  /\ wi_gust g = mkSpeed (Some 25%N) KNOTS /\ wi_vsecEnd g = mkDir 270 DT_VALUE_DEGREES
  /\ wi_evTime h = Some (mkTime None 5 47) /\ wi_evTime k = Some (mkTime None 4 30).
Proof.
  eexists.
  exists (mkWind Wi_SURFACE_WIND_WITH_VARIABLE_SECTOR (mkDir 240 DT_VALUE_DEGREES) (mkSpeed (Some 10%N) KNOTS) (mkSpeed (Some 25%N) KNOTS)
    Distance_default (mkDir 210 DT_VALUE_DEGREES) (mkDir 270 DT_VALUE_DEGREES) None None WiI_NONE).
  exists (mkWind Wi_PEAK_WIND (mkDir 240 DT_VALUE_DEGREES) (mkSpeed (Some 31%N) KNOTS) Speed_default
    Distance_default Direction_default Direction_default (Some (mkTime None 5 47)) None WiI_NONE).
  exists (mkWind Wi_WIND_SHIFT_FROPA Direction_default Speed_default Speed_default
    Distance_default Direction_default Direction_default (Some (mkTime None 4 30)) None WiI_NONE).
  split; [vm_compute; reflexivity|]. split; [cbn; repeat (try (left; reflexivity); right)|].
  split; [cbn; repeat (try (left; reflexivity); right)|]. split; [cbn; repeat (try (left; reflexivity); right)|]. repeat split; vm_compute; reflexivity.
Qed.
