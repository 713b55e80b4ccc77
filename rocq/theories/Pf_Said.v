(** C60: the texts of groups. *)
From Coq Require Import Lia.
From Verif Require Import Prim Lib Regex Float Values Weather Groups1 Groups2 Groups3 Groups4 Parser SpecReach SpecAssembled SpecSaid.
From Verif Require Import Pf_Ok Pf_Caps Pf_Kinds Pf_Total Pf_EndAppend Pf_Sentence Pf_Assembled Pf_TimeOnly Pf_OneKind Pf_Division Pf_Ends Pf_Completion.
From Verif Require SpecVisibility SpecMeta SpecTrend SpecMinMax Pf_Visibility Pf_Clouds Pf_Trend Pf_MinMax Pf_WindWords Pf_Lightning Pf_Vicinity Pf_Meta2 Pf_CloudTypes Pf_Temperatures Pf_Pressures Pf_Tendencies Pf_RunwayStates Pf_Amounts Pf_Miscs Pf_WeatherGroup.
Import SpecVisibility(may_end).
Local Open Scope string_scope.

Definition in_report (part : ReportPart) : Prop := part = RP_METAR \/ part = RP_TAF \/ part = RP_RMK.
Lemma trend_as : forall part now ws g, Assembled part now ws (GTrend g) <-> SpecTrend.Trend_assembled part ws g.
Proof.
  intros part now ws g. split; intros H.
  - refine (assembled_kind part now (fun ws k => match k with GTrend x => SpecTrend.Trend_assembled part ws x | _ => True end) _ _ ws (GTrend g) H).
    + intros w md k T E. destruct k; auto. eapply SpecTrend.Trend_begun. exact E.
    + intros us w md k k' _ IH T E. destruct k'; auto. destruct k; try contradiction. eapply SpecTrend.Trend_continued; [exact IH|exact E].
  - induction H as [w md g E|us w md g g' _ IH E].
    + apply assembled_first. exact E.
    + eapply assembled_more; [exact IH|]. exact E.
Qed.
Lemma minmax_as : forall part now ws g, Assembled part now ws (GMinMaxTemperature g) <-> SpecMinMax.MinMax_assembled part ws g.
Proof.
  intros part now ws g. split; intros H.
  - refine (assembled_kind part now (fun ws k => match k with GMinMaxTemperature x => SpecMinMax.MinMax_assembled part ws x | _ => True end) _ _ ws (GMinMaxTemperature g) H).
    + intros w md k T E. destruct k; auto. eapply SpecMinMax.MinMax_begun. exact E.
    + intros us w md k k' _ IH T E. destruct k'; auto. destruct k; try contradiction. eapply SpecMinMax.MinMax_continued; [exact IH|exact E].
  - induction H as [w md g E|us w md g g' _ IH E].
    + apply assembled_first. exact E.
    + eapply assembled_more; [exact IH|]. exact E.
Qed.
Theorem assembled_said : forall part now ws g, in_report part -> Assembled part now ws g -> may_end part g -> Said part now ws g.
Proof.
  intros part now ws g P A M.
  assert (S : (forall v, g <> GVisibility v) -> SpecAssembled.settled part g) by (intros N; exact (ends_settled part g N M)).
  destruct g; try specialize (S ltac:(discriminate)); cbn [Said].
  - destruct (keyword_word _ _ _ _ A) as (w & -> & E). destruct g. apply Pf_Meta2.keyword_parse_iff in E. destruct E as [-> E]. auto.
  - exfalso. destruct (assembled_split _ _ _ _ A) as (w & ws' & p & md & g0 & -> & Ip & T & E & C). pose proof (continued_index _ _ _ _ _ C) as I. apply parsed_inv in E; [|exact Ip]. destruct g0; try discriminate I. cbn [parsed_as] in E. unfold LocationGroup_parse in E.
    destruct P as [->|[->| ->]]; discriminate E.
  - exfalso. destruct (assembled_split _ _ _ _ A) as (w & ws' & p & md & g0 & -> & Ip & T & E & C). pose proof (continued_index _ _ _ _ _ C) as I. apply parsed_inv in E; [|exact Ip]. destruct g0; try discriminate I. cbn [parsed_as] in E. unfold ReportTimeGroup_parse in E.
    destruct P as [->|[->| ->]]; discriminate E.
  - apply Pf_Trend.trend_iff. exists g. split; [|reflexivity]. apply trend_as in A. exact A.
  - exact (proj1 (Pf_WindWords.wind_words part now ws) g A S).
  - exact (proj1 (Pf_Visibility.visibility_words part now ws) g A M).
  - exact (proj1 (Pf_Clouds.cloud_words part now ws) g A S).
  - exact (proj1 (Pf_WeatherGroup.weather_group_words part now ws) g A S).
  - apply (Pf_Temperatures.temperature_words part now ws). exists g. auto.
  - exact (proj1 (Pf_Pressures.pressure_words part now ws) g A S).
  - exact (proj1 (Pf_RunwayStates.state_words part now ws) g A).
  - exact (proj1 (Pf_Tendencies.sea_words part now ws) g A).
  - apply Pf_MinMax.minmax_iff. exists g. split; [|reflexivity]. apply minmax_as in A. exact A.
  - exact (proj1 (Pf_Amounts.precipitation_words part now ws) g A S).
  - destruct g as [t b top]. apply (Pf_Miscs.layer_words part now ws t b top). exact A.
  - exact (proj1 (Pf_Tendencies.tendency_words part now ws) g A).
  - apply (Pf_CloudTypes.types_words part now ws). exists g. auto.
  - apply (Pf_CloudTypes.codes_words part now ws). exact A.
  - exact (proj1 (Pf_Lightning.lightning_words part now ws) g A S).
  - exact (proj1 (Pf_Vicinity.vicinity_words part now ws) g A S).
  - exact (proj1 (Pf_Miscs.misc_words part now ws) g A S).
  - destruct (assembled_known _ _ _ _ A) as [F _]. discriminate F.
Qed.
Theorem said_assembled : forall part now ws g, Said part now ws g -> exists g', Assembled part now ws g' /\ may_end part g' /\ Group_index g' = Group_index g.
Proof.
  intros part now ws g H.
  assert (D : forall g', Assembled part now ws g' -> Group_index g' = Group_index g -> SpecAssembled.settled part g' -> exists g', Assembled part now ws g' /\ may_end part g' /\ Group_index g' = Group_index g).
  { intros g' A I S. destruct (assembled_known _ _ _ _ A) as [F R]. exists g'. split; [exact A|]. split; [|exact I]. apply settled_ends; assumption. }
  destruct g; cbn [Said] in H.
  - destruct H as [-> I]. refine (D (GKeyword g) _ eq_refl _).
    + destruct g. apply assembled_first. apply Pf_Meta2.keyword_parse_iff. auto.
    + intros w md g' X. apply appended_inv in X. destruct g'; try contradiction. discriminate X.
  - contradiction.
  - contradiction.
  - apply Pf_Trend.trend_iff in H. destruct H as (g' & A & _). refine (D (GTrend g') _ eq_refl _); [apply trend_as; exact A|].
    intros w md g2 X. apply appended_inv in X. destruct g2; try contradiction. cbn [appended_as] in X. unfold TrendGroup_append in X. outcome X.
  - destruct (proj2 (Pf_WindWords.wind_words part now ws) _ H) as (g' & A & S & _). exact (D _ A eq_refl S).
  - destruct (proj2 (Pf_Visibility.visibility_words part now ws) _ H) as (g' & A & S & _). exists (GVisibility g'). auto.
  - destruct (proj2 (Pf_Clouds.cloud_words part now ws) _ H) as (g' & A & S & _). exact (D _ A eq_refl S).
  - destruct (proj2 (Pf_WeatherGroup.weather_group_words part now ws) _ H) as (g' & A & S & _). exact (D _ A eq_refl S).
  - apply (Pf_Temperatures.temperature_words part now ws) in H. destruct H as (g' & A & S & _). exact (D _ A eq_refl S).
  - destruct (proj2 (Pf_Pressures.pressure_words part now ws) _ _ H) as (g' & A & S & _). exact (D _ A eq_refl S).
  - destruct (proj2 (Pf_RunwayStates.state_words part now ws) _ H) as (g' & A & _). refine (D _ A eq_refl _).
    intros w md g2 X. apply appended_inv in X. destruct g2; try contradiction. discriminate X.
  - destruct (proj2 (Pf_Tendencies.sea_words part now ws) _ _ H) as (g' & A & _). refine (D _ A eq_refl _).
    intros w md g2 X. apply appended_inv in X. destruct g2; try contradiction. discriminate X.
  - apply Pf_MinMax.minmax_iff in H. destruct H as (g' & A & _). refine (D (GMinMaxTemperature g') _ eq_refl _); [apply minmax_as; exact A|].
    intros w md g2 X. apply appended_inv in X. destruct g2; try contradiction. cbn [appended_as] in X. unfold MinMaxTemperatureGroup_append, MinMax_append6hourly, MinMax_appendForecast in X. cbv zeta in X. outcome X.
  - destruct (proj2 (Pf_Amounts.precipitation_words part now ws) _ _ _ H) as (g' & A & S & _). exact (D _ A eq_refl S).
  - destruct g as [t b u]. cbn in H. apply (Pf_Miscs.layer_words part now ws) in H. refine (D _ H eq_refl _).
    intros w md g2 X. apply appended_inv in X. destruct g2; try contradiction. discriminate X.
  - destruct (proj2 (Pf_Tendencies.tendency_words part now ws) _ _ _ H) as (g' & A & _). refine (D _ A eq_refl _).
    intros w md g2 X. apply appended_inv in X. destruct g2; try contradiction. discriminate X.
  - apply (Pf_CloudTypes.types_words part now ws) in H. destruct H as (g' & A & _). refine (D _ A eq_refl _).
    intros w md g2 X. apply appended_inv in X. destruct g2; try contradiction. cbn [appended_as] in X. unfold CloudTypesGroup_append in X. cbv zeta in X. outcome X.
  - apply (Pf_CloudTypes.codes_words part now ws) in H. refine (D _ H eq_refl _).
    intros w md g2 X. apply appended_inv in X. destruct g2; try contradiction. discriminate X.
  - destruct H as (-> & v & H & _). destruct (proj2 (Pf_Lightning.lightning_words RP_RMK now ws) eq_refl _ H) as (g' & A & S & _). exact (D _ A eq_refl S).
  - destruct H as (-> & v & H & _). destruct (proj2 (Pf_Vicinity.vicinity_words RP_RMK now ws) eq_refl _ H) as (g' & A & S & _). exact (D _ A eq_refl S).
  - destruct (proj2 (Pf_Miscs.misc_words part now ws) _ _ H) as (g' & A & S & _). exact (D _ A eq_refl S).
  - contradiction.
Qed.
