(** Keywords are not appended to groups. *)
From Coq Require Import Lia.
From Verif Require Import Prim Lib Regex Float Values Weather Groups1 Groups2 Groups3 Groups4 Parser.
From Verif Require Import SpecReach SpecAppend Pf_Ok Pf_Kinds Pf_Decode Pf_Refuse.
Local Open Scope string_scope.

Ltac each := match goal with K : In ?s keywords |- _ => cbn [keywords In] in K; repeat (destruct K as [K|K]; [subst s; vm_compute; reflexivity|]); contradiction end.
Lemma kw_word : forall s, In s keywords -> forallb (fun w => negb (seqb s w))
  ["FROPA"; "WND"; "MISG"; "RWY"; "ALL"; "VIS"; "V"; "CLD"; "MOV"; "AND"; "DSNT"; "VC"; "TEMPO"; "UNAVBL"; "ALT"; "1/4"; "1/2"; "2/4"; "3/4"] = true.
Proof. intros s K. each. Qed.
Lemma kw_runway : forall s, In s keywords -> Runway_fromString s true = Ok None.
Proof. intros s K. each. Qed.
Lemma kw_dir : forall s, In s keywords -> forall a b, Direction_fromCardinalString s a b = None.
Proof. intros s K [|] [|]; each. Qed.
Lemma kw_sector : forall s, In s keywords -> Direction_fromSectorString s = None.
Proof. intros s K. each. Qed.
Lemma kw_vsector : forall s, In s keywords -> Wind_parseVariableSector s = Ok None.
Proof. intros s K. each. Qed.
Lemma kw_peak : forall s, In s keywords -> regex_match rgx_pkwnd s = None.
Proof. intros s K. each. Qed.
Lemma kw_two : forall s, In s keywords -> Nat.eqb (slen s) 2 = false.
Proof. intros s K. each. Qed.
Lemma kw_four : forall s, In s keywords -> Nat.eqb (slen s) 4 = true -> strToUint s 0 4 = Ok None.
Proof. intros s K. cbn [keywords In] in K; repeat (destruct K as [K|K]; [subst s; vm_compute; first [reflexivity | discriminate]|]); contradiction. Qed.
Lemma kw_mile : forall s, In s keywords -> forall b, Distance_fromMileString s b = Ok None.
Proof. intros s K [|]; each. Qed.
Lemma kw_fraction : forall s, In s keywords -> fractionStrToUint s 0 (slen s) = Ok None.
Proof. intros s K. each. Qed.
Lemma kw_variable : forall s, In s keywords -> forall g a b, Vis_appendVariable g s a b = Ok None.
Proof. intros s K g a b. each. Qed.
Lemma kw_meter : forall s, In s keywords -> Distance_fromMeterString s = Ok None.
Proof. intros s K. each. Qed.
Lemma kw_varmeters : forall s, In s keywords -> regex_match rgx_varmeters s = None.
Proof. intros s K. each. Qed.
Lemma kw_height : forall s, In s keywords -> Distance_fromHeightString s = Ok None.
Proof. intros s K. each. Qed.
Lemma kw_ceiling : forall s, In s keywords -> regex_match rgx_ceiling s = None.
Proof. intros s K. each. Qed.
Lemma kw_obscuration : forall s, In s keywords -> regex_match rgx_obscuration s = None.
Proof. intros s K. each. Qed.
Lemma kw_amount : forall s, In s keywords -> Cloud_amountFromString s = None.
Proof. intros s K. each. Qed.
Lemma kw_weather : forall s, In s keywords -> forall part, Weather_parseWeatherWithoutEvent s part = Ok None.
Proof. intros s K []; each. Qed.
Lemma kw_trend : forall s, In s keywords -> forall part md, TrendGroup_parse s part md = Ok None.
Proof. intros s K [] md; each. Qed.
Lemma kw_six : forall s, In s keywords -> MinMax_from6hourly s = Ok None.
Proof. intros s K. each. Qed.
Lemma kw_forecast : forall s, In s keywords -> MinMax_fromForecast s = Ok None.
Proof. intros s K. each. Qed.
Lemma kw_cloudtype : forall s, In s keywords -> CloudType_fromString s = Ok None.
Proof. intros s K. each. Qed.
Lemma kw_ltg : forall s, In s keywords -> Lightning_fromLtgGroup s = Ok None.
Proof. intros s K. each. Qed.
Lemma kw_km : forall s, In s keywords -> Distance_fromKmString s = Ok None.
Proof. intros s K. each. Qed.
Lemma kw_density : forall s, In s keywords -> forall g, Misc_appendDensityAltitude g s = Ok None.
Proof. intros s K g. each. Qed.
Lemma kw_one : forall s, In s keywords -> Nat.eqb (slen s) 1 = true -> s = "$".
Proof. intros s K. cbn [keywords In] in K; repeat (destruct K as [K|K]; [subst s; vm_compute; first [reflexivity | discriminate]|]); contradiction. Qed.

Ltac destruct_one H := match type of H with (if ?b then _ else _) = _ => let E := fresh "E" in destruct b eqn:E end.
Theorem keyword_not_appended : forall g k part md g' a,
  In k keywords -> is_fallback g = false -> Group_append g k part md = Ok (g', a) -> a <> APPENDED.
Proof.
  intros g s part md g' a K F A ->. apply appended_inv in A.
  pose proof (kw_word s K) as Kw. cbn [forallb] in Kw. rewrite ?andb_true_iff, ?negb_true_iff in Kw. decompose [and] Kw. clear Kw.
  destruct g, g'; try contradiction; try discriminate F; cbn [appended_as] in A; try discriminate A.
  - unfold TrendGroup_append in A. rewrite (kw_trend s K) in A. cbn [bind] in A. peel A.
  - unfold WindGroup_append, Wind_appendVariableSector, Wind_appendWindShift, Wind_appendPeakWind in A.
    rewrite (kw_vsector s K), (kw_peak s K), (kw_two s K), (kw_runway s K), andb_false_r in A. cbn [bind] in A.
    peel A; try (rewrite (kw_four s K) in * by assumption; congruence);
    try match goal with H : negb _ = false |- _ => apply negb_false_iff in H end; congruence.
  - unfold VisibilityGroup_append, try_append, Vis_appendFractionToIncompleteInteger, Vis_appendDirection, Vis_appendInteger,
      Vis_appendFraction, Vis_appendVariableMaxFraction, Vis_appendMeters, Vis_appendVariableMeters, Vis_appendRunway in A.
    rewrite ?(kw_mile s K), ?(kw_dir s K), ?(kw_sector s K), ?(kw_fraction s K), ?(kw_variable s K), ?(kw_meter s K), ?(kw_varmeters s K), ?(kw_runway s K) in A.
    cbv zeta in A. cbn [bind] in A. peel A; try congruence.
    all: repeat match goal with H : (if _ then _ else _) = Ok (Some _) |- _ => peel H end; congruence.
  - unfold CloudGroup_append, Cloud_appendVariableCloudAmount, Cloud_appendCeiling, Cloud_appendRunwayOrCardinalDirection, Cloud_appendObscuration in A.
    rewrite ?(kw_amount s K), ?(kw_height s K), ?(kw_ceiling s K), ?(kw_runway s K), ?(kw_dir s K), ?(kw_obscuration s K) in A.
    cbn [bind has_value] in A. peel A; try match goal with H : negb _ = false |- _ => apply negb_false_iff in H end; congruence.
  - unfold WeatherGroup_append in A. cbv zeta in A. rewrite ?(kw_weather s K) in A. cbn [bind] in A.
    peel A; try match goal with H : negb _ = false |- _ => apply negb_false_iff in H end; congruence.
  - unfold TemperatureGroup_append in A. peel A; try match goal with H : negb _ = false |- _ => apply negb_false_iff in H end; congruence.
  - unfold PressureGroup_append in A. peel A; try match goal with H : negb _ = false |- _ => apply negb_false_iff in H end; congruence.
  - unfold MinMaxTemperatureGroup_append, MinMax_append6hourly, MinMax_appendForecast in A.
    rewrite ?(kw_six s K), ?(kw_forecast s K) in A. cbn [bind] in A. peel A.
  - unfold PrecipitationGroup_append, Precipitation_fromSnincrString in A. rewrite ?(kw_fraction s K) in A. cbn [bind] in A.
    peel A; try match goal with H : negb (seqb _ _) = false |- _ => apply negb_false_iff in H end; congruence.
  - unfold CloudTypesGroup_append in A. rewrite ?(kw_cloudtype s K) in A. cbn [bind] in A. peel A.
  - unfold LightningGroup_append in A. rewrite ?(kw_ltg s K), ?(kw_dir s K), ?(kw_sector s K) in A. cbn [bind] in A. peel A; congruence.
  - unfold VicinityGroup_append, Vicinity_appendDistance, Vicinity_appendDir1, Vicinity_appendDir2 in A. cbv zeta in A.
    rewrite ?(kw_dir s K), ?(kw_sector s K), ?(kw_km s K) in A. cbn [bind] in A. peel A; try congruence.
    all: match goal with H : (if _ then _ else _) = Ok (Some _) |- _ => peel H end; congruence.
  - unfold MiscGroup_append, Misc_appendHailstoneFraction in A. cbv zeta in A. rewrite ?(kw_density s K) in A. cbn [bind] in A.
    peel A; try congruence.
    all: repeat match goal with H : (if _ then _ else _) = Some _ |- _ => destruct_one H end; try congruence.
    all: try (match goal with H : orb _ _ = true |- _ => apply orb_true_iff in H; destruct H; congruence end).
    all: match goal with H : Nat.eqb _ 1 = true |- _ => apply (kw_one s K) in H; subst s end.
    all: match goal with H : sget _ _ = Ok ?x |- _ => cbn in H; injection H as <- end; discriminate.
Qed.
