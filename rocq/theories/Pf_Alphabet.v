(** Proofs for C78: groups are made up of capital letters, digits and a few signs, except what follows LTG. *)
From Coq Require Import Lia Bool.
From Verif Require Import Prim Lib Regex Float Values Weather Groups1 Groups2 Groups3 Groups4 Parser
  SpecRegex SpecDecimal SpecWeather SpecNumeral SpecPhenomena SpecCloud SpecReach SpecAlphabet.
From Verif Require Import Pf_Regex Pf_Ok Pf_Caps Pf_Numeral Pf_Formats Pf_Cloud Pf_Weather Pf_Phenomena Pf_Decode Pf_Events Pf_Kinds Pf_View.
From Verif Require Import Pf_Words Pf_Decimal Pf_Values3 Pf_Miscs Pf_Built SpecBuilt SpecTokens SpecReads SpecText.
Local Open Scope string_scope.

Definition clean (s : string) : Prop := str_all metar_char s = true.
Lemma clean_word : forall s, clean s -> metar_word s.
Proof. intros s H a c b ->. unfold clean in H. rewrite str_all_app in H. cbn [str_all] in H. apply andb_prop in H. destruct H as [_ H]. apply andb_prop in H. apply H. Qed.
Lemma clean_app : forall a b, clean a -> clean b -> clean (a ++ b).
Proof. intros a b A B; unfold clean in *; rewrite str_all_app, A, B; reflexivity. Qed.
Lemma matches_clean : forall p s, matches p s -> cls_all metar_char (rx p) = true -> clean s.
Proof. intros p s M C; exact (lang_cls_all metar_char _ _ M C). Qed.
Lemma decimal_clean : forall s v, decimal s = Some v -> clean s.
Proof.
  intros s. unfold clean. induction s as [|c s IH]; intros v D; [reflexivity|].
  cbn [decimal] in D. destruct (digit_of c) as [d|] eqn:E; [|discriminate]. destruct (decimal s) as [w|]; [|discriminate].
  cbn [str_all]. rewrite (IH w eq_refl), andb_true_r. clear - E. destruct c as [[] [] [] [] [] [] [] []]; try discriminate E; reflexivity.
Qed.
Lemma numeral_clean : forall n s v, numeral n s v -> clean s.
Proof. intros n s v [_ D]. exact (decimal_clean _ _ D). Qed.
Lemma letters_clean : forall q d ws, proper_q q -> proper_d d -> Forall proper_w ws -> clean (written q d ws).
Proof.
  intros q d ws Q D W. unfold written. apply clean_app; [destruct q; try contradiction; reflexivity|].
  apply clean_app; [destruct d; try contradiction; reflexivity|].
  induction W as [|w ws P W IH]; [reflexivity|]. cbn [all_letters].
  apply clean_app; [destruct w; try contradiction; reflexivity|exact IH].
Qed.
Lemma weather_clean : forall s b p, Wp_fromString s b = Ok (Some p) -> clean s.
Proof.
  intros s b p H. apply weather_sound in H. destruct H as (q & d & ws & R & -> & _).
  apply recognised_proper in R. apply letters_clean; apply R.
Qed.
Lemma event_clean : forall t prev s p, event_text t prev s p -> clean s.
Proof.
  intros t prev s p (ph & ev & h & m & q & d & ws & hour & minute & -> & K & Hh & Hm & P & _).
  apply clean_app.
  - destruct P as [(-> & _)|(R & ->)]; [reflexivity|]. apply recognised_proper in R. apply letters_clean; apply R.
  - apply clean_app; [destruct K as [-> | ->]; reflexivity|].
    apply clean_app; [|exact (numeral_clean _ _ _ Hm)]. destruct Hh as [(-> & _)|Hh]; [reflexivity|exact (numeral_clean _ _ _ Hh)].
Qed.
Lemma events_clean : forall t prev ss ps, events t prev ss ps -> clean (concatenated ss).
Proof.
  intros t prev ss ps E; induction E as [|prev s p ss ps X E IH]; [reflexivity|].
  cbn [concatenated fold_right]. apply clean_app; [exact (event_clean _ _ _ _ X)|exact IH].
Qed.
Lemma cloud_clean : forall s c, CloudType_fromString s = Ok (Some c) -> clean s.
Proof.
  intros s c H. assert (A : accepted (CloudType_fromString s)) by (eexists; exact H).
  apply cloud_format in A. destruct A as [A|A]; (eapply matches_clean; [exact A|vm_compute; reflexivity]).
Qed.
Lemma miles_clean : forall s b v, Distance_fromMileString s b = Ok (Some v) -> clean s.
Proof.
  intros s b v H. assert (A : accepted (Distance_fromMileString s b)) by (eexists; exact H).
  destruct b; [apply remark_mile_format in A|apply mile_format in A]; (eapply matches_clean; [exact A|vm_compute; reflexivity]).
Qed.
Lemma pressure_clean : forall s v, Pressure_fromString s = Ok (Some v) -> clean s.
Proof. intros s v H; eapply matches_clean; [apply pressure_format; eexists; exact H|vm_compute; reflexivity]. Qed.
Lemma forecast_clean : forall s v, Pressure_fromForecastString s = Ok (Some v) -> clean s.
Proof. intros s v H; eapply matches_clean; [apply forecast_pressure_format; eexists; exact H|vm_compute; reflexivity]. Qed.
Lemma slp_clean : forall s v, Pressure_fromSlpString s = Ok (Some v) -> clean s.
Proof. intros s v H; eapply matches_clean; [apply slp_format; eexists; exact H|vm_compute; reflexivity]. Qed.
Lemma qfe_clean : forall s v, Pressure_fromQfeString s = Ok (Some v) -> clean s.
Proof. intros s v H; eapply matches_clean; [apply qfe_format; eexists; exact H|vm_compute; reflexivity]. Qed.
Lemma runway_clean : forall s v, Runway_fromString s true = Ok (Some v) -> clean s.
Proof. intros s v H; eapply matches_clean; [apply runway_format; eexists; exact H|vm_compute; reflexivity]. Qed.
Lemma meter_clean : forall s v, Distance_fromMeterString s = Ok (Some v) -> clean s.
Proof. intros s v H; eapply matches_clean; [apply meter_format; eexists; exact H|vm_compute; reflexivity]. Qed.
Lemma height_clean : forall s v, Distance_fromHeightString s = Ok (Some v) -> clean s.
Proof. intros s v H; eapply matches_clean; [apply height_format; eexists; exact H|vm_compute; reflexivity]. Qed.
Lemma km_clean : forall s v, Distance_fromKmString s = Ok (Some v) -> clean s.
Proof. intros s v H; eapply matches_clean; [apply km_format; eexists; exact H|vm_compute; reflexivity]. Qed.
Lemma snincr_clean : forall s v, Precipitation_fromSnincrString s = Ok (Some v) -> clean s.
Proof. intros s v H; eapply matches_clean; [apply snincr_format; eexists; exact H|vm_compute; reflexivity]. Qed.
Lemma seqb_clean : forall s t, seqb s t = true -> clean t -> clean s.
Proof. intros s t H P; apply seqb_eq in H; subst; exact P. Qed.
Lemma match_clean : forall r s m, regex_match r s = Some m -> cls_all metar_char r = true -> clean s.
Proof. intros r s m H C; eapply lang_cls_all; [eapply match_lang; exact H|exact C]. Qed.
Lemma is_match_clean : forall r s, is_match r s = true -> cls_all metar_char r = true -> clean s.
Proof. intros r s H C; eapply lang_cls_all; [apply is_match_lang; exact H|exact C]. Qed.
Lemma lookup_clean : forall A s (t : list (string * A)) v, lookup s t = Some v -> forallb (fun k => str_all metar_char (fst k)) t = true -> clean s.
Proof.
  intros A s t v. induction t as [|(k & x) t IH]; intros L F; [discriminate L|]. cbn [lookup] in L. cbn [forallb fst] in F. apply andb_prop in F. destruct F as [K F].
  destruct (seqb s k) eqn:E; [apply seqb_eq in E; subst; exact K|exact (IH L F)].
Qed.
Lemma cardinal_clean : forall s a b v, Direction_fromCardinalString s a b = Some v -> clean s.
Proof.
  intros s a b v H. unfold Direction_fromCardinalString in H.
  destruct (sempty s) eqn:E0; [discriminate H|].
  repeat match type of H with
  | context [seqb s ?t] => let E := fresh in destruct (seqb s t) eqn:E; [apply (seqb_clean _ _ E); reflexivity|]; rewrite ?andb_false_r in H
  end. discriminate H.
Qed.
Lemma sector_clean : forall s v, Direction_fromSectorString s = Some v -> clean s.
Proof. intros s v H. unfold Direction_fromSectorString in H. destruct (regex_match rgx_sector s) eqn:E; [|discriminate H]. apply (match_clean _ _ _ E). vm_compute. reflexivity. Qed.

Ltac clean_leaf :=
  match goal with
  | E : seqb ?s ?t = true |- clean ?s => apply (seqb_clean _ _ E); reflexivity
  | E : negb (seqb ?s ?t) = false |- clean ?s => apply negb_false_iff in E; apply (seqb_clean _ _ E); reflexivity
  | E : seqb ?s ?t || seqb ?s ?u = true |- clean ?s => apply orb_prop in E; destruct E as [E|E]; apply (seqb_clean _ _ E); reflexivity
  | E : regex_match _ ?s = Some _ |- clean ?s => apply (match_clean _ _ _ E); vm_compute; reflexivity
  | E : is_match _ ?s = true |- clean ?s => apply (is_match_clean _ _ E); vm_compute; reflexivity
  | E : negb (is_match _ ?s) = false |- clean ?s => apply negb_false_iff in E; apply (is_match_clean _ _ E); vm_compute; reflexivity
  | E : lookup ?s _ = Some _ |- clean ?s => apply (lookup_clean _ _ _ _ E); vm_compute; reflexivity
  | E : Distance_fromMileString ?s _ = Ok (Some _) |- clean ?s => exact (miles_clean _ _ _ E)
  | E : Distance_fromMeterString ?s = Ok (Some _) |- clean ?s => exact (meter_clean _ _ E)
  | E : Distance_fromHeightString ?s = Ok (Some _) |- clean ?s => exact (height_clean _ _ E)
  | E : Distance_fromKmString ?s = Ok (Some _) |- clean ?s => exact (km_clean _ _ E)
  | E : Runway_fromString ?s true = Ok (Some _) |- clean ?s => exact (runway_clean _ _ E)
  | E : Precipitation_fromSnincrString ?s = Ok (Some _) |- clean ?s => exact (snincr_clean _ _ E)
  | E : Direction_fromCardinalString ?s _ _ = Some _ |- clean ?s => exact (cardinal_clean _ _ _ _ E)
  | E : Direction_fromSectorString ?s = Some _ |- clean ?s => exact (sector_clean _ _ E)
  | E : Pressure_fromString ?s = Ok (Some _) |- clean ?s => exact (pressure_clean _ _ E)
  | E : Pressure_fromForecastString ?s = Ok (Some _) |- clean ?s => exact (forecast_clean _ _ E)
  | E : Pressure_fromSlpString ?s = Ok (Some _) |- clean ?s => exact (slp_clean _ _ E)
  | E : Pressure_fromQfeString ?s = Ok (Some _) |- clean ?s => exact (qfe_clean _ _ E)
  | E : CloudType_fromString ?s = Ok (Some _) |- clean ?s => exact (cloud_clean _ _ E)
  | E : Wp_fromString ?s _ = Ok (Some _) |- clean ?s => exact (weather_clean _ _ _ E)
  end.
Ltac clean_step H :=
  match type of H with
  | or_else _ _ = Ok (Some _) => apply or_else_inv in H; destruct H as [H|[_ H]]
  | try_append _ _ = _ => unfold try_append in H
  | bind _ (fun o => match o with Some _ => _ | None => Ok None end) = Ok (Some _) =>
      let a := fresh "a" in let E := fresh "E" in apply may_inv in H; destruct H as (a & E & H)
  | bind _ _ = Ok _ => let a := fresh "a" in let E := fresh "E" in apply bind_ok in H; destruct H as (a & E & H)
  | (if ?b then _ else _) = _ => let E := fresh "E" in destruct b eqn:E
  | match ?b with _ => _ end = _ => let E := fresh "E" in destruct b eqn:E
  | Ok None = Ok (Some _) => discriminate H
  | Ok (_, NOT_APPENDED) = Ok (_, APPENDED) => discriminate H
  | Ok (_, GROUP_INVALIDATED) = Ok (_, APPENDED) => discriminate H
  | Bad _ = _ => discriminate H
  | None = Some _ => discriminate H
  end.
Ltac clean_all :=
  repeat first
  [ clean_leaf
  | match goal with
    | E : _ && _ = true |- _ => apply andb_prop in E; destruct E
    | H : _ = Ok (Some _) |- _ => clean_step H; cbv beta zeta in *
    | H : _ = Some _ |- _ => clean_step H; cbv beta zeta in *
    | H : _ = Ok (_, APPENDED) |- _ => clean_step H; cbv beta zeta in *
    end ].

(** ** The first word *)
Lemma pc_keyword : forall s part md g, KeywordGroup_parse s part md = Ok (Some g) -> clean s.
Proof. intros s part md g H; unfold KeywordGroup_parse in H; cbv beta zeta in H. clean_all. Qed.
Lemma pc_location : forall s part md g, LocationGroup_parse s part md = Ok (Some g) -> clean s.
Proof. intros s part md g H; unfold LocationGroup_parse in H; cbv beta zeta in H. clean_all. Qed.
Lemma pc_time : forall s part md g, ReportTimeGroup_parse s part md = Ok (Some g) -> clean s.
Proof. intros s part md g H; unfold ReportTimeGroup_parse in H; cbv beta zeta in H. clean_all. Qed.
Lemma pc_trend : forall s part md g, TrendGroup_parse s part md = Ok (Some g) -> clean s.
Proof. intros s part md g H; unfold TrendGroup_parse, Trend_fromTimeSpan, Trend_fromTimeSpanHHMM, Trend_fromFm, Trend_fromTrendTime in H; cbv beta zeta in H. clean_all. Qed.
Lemma pc_wind : forall s part md g, WindGroup_parse s part md = Ok (Some g) -> clean s.
Proof. intros s part md g H; unfold WindGroup_parse, Wind_parseVariableSector, Wind_parseSurfaceOrShear in H; cbv beta zeta in H. clean_all. Qed.
Lemma pc_visibility : forall s part md g, VisibilityGroup_parse s part md = Ok (Some g) -> clean s.
Proof. intros s part md g H; unfold VisibilityGroup_parse, Vis_fromIncompleteInteger, Vis_fromMeters, Vis_fromRvr, Vis_appendInteger in H; cbv beta zeta in H. clean_all. Qed.
Lemma pc_cloud : forall s part md g, CloudGroup_parse s part md = Ok (Some g) -> clean s.
Proof. intros s part md g H; unfold CloudGroup_parse, Cloud_parseCloudLayerOrVertVis, CloudType_fromStringObscuration, Cloud_parseVariableCloudLayer in H; cbv beta zeta in H. clean_all. Qed.
Lemma pc_temperature : forall s part md g, TemperatureGroup_parse s part md = Ok (Some g) -> clean s.
Proof. intros s part md g H; unfold TemperatureGroup_parse in H; cbv beta zeta in H. clean_all. Qed.
Lemma pc_pressure : forall s part md g, PressureGroup_parse s part md = Ok (Some g) -> clean s.
Proof. intros s part md g H; unfold PressureGroup_parse in H; cbv beta zeta in H. clean_all. Qed.
Lemma pc_runwaystate : forall s part md g, RunwayStateGroup_parse s part md = Ok (Some g) -> clean s.
Proof. intros s part md g H; unfold RunwayStateGroup_parse in H; cbv beta zeta in H. clean_all. Qed.
Lemma pc_seasurface : forall s part md g, SeaSurfaceGroup_parse s part md = Ok (Some g) -> clean s.
Proof. intros s part md g H; unfold SeaSurfaceGroup_parse in H; cbv beta zeta in H. clean_all. Qed.
Lemma pc_minmax : forall s part md g, MinMaxTemperatureGroup_parse s part md = Ok (Some g) -> clean s.
Proof. intros s part md g H; unfold MinMaxTemperatureGroup_parse, MinMax_fromForecast, MinMax_from6hourly, MinMax_from24hourly in H; cbv beta zeta in H. clean_all. Qed.
Lemma pc_precipitation : forall s part md g, PrecipitationGroup_parse s part md = Ok (Some g) -> clean s.
Proof. intros s part md g H; unfold PrecipitationGroup_parse in H; cbv beta zeta in H. clean_all. Qed.
Lemma pc_layer : forall s part md g, LayerForecastGroup_parse s part md = Ok (Some g) -> clean s.
Proof. intros s part md g H; unfold LayerForecastGroup_parse in H; cbv beta zeta in H. clean_all. Qed.
Lemma pc_tendency : forall s part md g, PressureTendencyGroup_parse s part md = Ok (Some g) -> clean s.
Proof. intros s part md g H; unfold PressureTendencyGroup_parse in H; cbv beta zeta in H. clean_all. Qed.
Lemma pc_cloudtypes : forall s part md g, CloudTypesGroup_parse s part md = Ok (Some g) -> clean s.
Proof. intros s part md g H; unfold CloudTypesGroup_parse in H; cbv beta zeta in H. clean_all. Qed.
Lemma pc_lowmidhigh : forall s part md g, LowMidHighCloudGroup_parse s part md = Ok (Some g) -> clean s.
Proof. intros s part md g H; unfold LowMidHighCloudGroup_parse in H; cbv beta zeta in H. clean_all. Qed.
Lemma pc_vicinity : forall s part md g, VicinityGroup_parse s part md = Ok (Some g) -> clean s.
Proof. intros s part md g H; unfold VicinityGroup_parse in H; cbv beta zeta in H. clean_all. Qed.
Lemma pc_misc : forall s part md g, MiscGroup_parse s part md = Ok (Some g) -> clean s.
Proof. intros s part md g H; unfold MiscGroup_parse, Misc_parseColourCode in H; cbv beta zeta in H. clean_all. Qed.

Lemma pc_weather : forall s part md g, WeatherGroup_parse s part md = Ok (Some g) -> clean s.
Proof.
  intros s part md g H; unfold WeatherGroup_parse, Weather_parseWeatherWithoutEvent in H; cbv beta zeta in H. clean_all.
  apply events_sound in H. destruct H as (ss & ps & _ & -> & V & _). exact (events_clean _ _ _ _ V).
Qed.
Lemma ltg_group : forall s g, Lightning_fromLtgGroup s = Ok (Some g) -> lightning_word s.
Proof.
  intros s g H. unfold Lightning_fromLtgGroup in H. destruct (seqb s "LTG") eqn:E0; [apply seqb_eq in E0; subst; exists ""; reflexivity|].
  destruct (Nat.ltb (slen s) 3); [discriminate|]. apply bind_ok in H. destruct H as (p & Hp & H). cbn in Hp. injection Hp as <-.
  destruct (seqb (substring 0 3 s) "LTG") eqn:E; [|discriminate]. apply seqb_eq in E.
  exists (sdrop 3 s). rewrite <- E. symmetry. apply substring0_sdrop_app.
Qed.
Lemma pc_lightning : forall s part md g, LightningGroup_parse s part md = Ok (Some g) -> clean s \/ lightning_word s.
Proof.
  intros s part md g H; unfold LightningGroup_parse in H.
  destruct (negb (is_part part RP_RMK)); [discriminate H|].
  destruct (seqb s "OCNL") eqn:E1; [left; clean_leaf|]. destruct (seqb s "FRQ") eqn:E2; [left; clean_leaf|].
  destruct (seqb s "CONS") eqn:E3; [left; clean_leaf|]. right. exact (ltg_group _ _ H).
Qed.

(** ** The next words *)
Lemma uint_clean : forall s n v, strToUint s 0 n = Ok (Some v) -> slen s = n -> clean s.
Proof.
  intros s n v H L. rewrite strToUint_spec in H. destruct (Nat.eqb n 0 || Nat.ltb (slen s) (0 + n)); [discriminate H|].
  subst n. rewrite substring0_all in H. destruct (decimal s) eqn:D; [|discriminate H]. exact (decimal_clean _ _ D).
Qed.
Lemma variable_clean : forall g s n m v, Vis_appendVariable g s n m = Ok (Some v) -> clean s.
Proof.
  intros g s n m v H. unfold Vis_appendVariable in H. destruct (sfind "V" s 0) as [k|] eqn:F; [|discriminate H].
  destruct (Nat.eqb k 0 || Nat.eqb k (slen s)); [discriminate H|]. cbv zeta in H.
  apply bind_ok in H. destruct H as (a & A & H). apply may_inv in H. destruct H as (x & X & H).
  apply bind_ok in H. destruct H as (b & B & H). apply may_inv in H. destruct H as (y & Y & _).
  unfold sfind in F. cbn [sdrop] in F. apply sfind0_inv in F. destruct F as (u & w & -> & _ & ->). 
  assert (a = u) as ->. { unfold substr in A. destruct (Nat.leb 0 (slen (u ++ String "V" w))); [|discriminate A]. cbn [Nat.add] in A. rewrite substring0_app in A. injection A as <-. reflexivity. }
  assert (b = w) as ->.
  { change (u ++ String "V" w) with (u ++ "V" ++ w) in B. rewrite <- app_assoc_s in B. apply substr_app in B.
    replace (0 + slen u + 1)%nat with (slen (u ++ "V")) in B by (rewrite slen_app; reflexivity).
    rewrite substring0_app in B. apply (f_equal (sdrop (slen (u ++ "V")))) in B. rewrite !sdrop_app in B. symmetry. exact B. }
  apply clean_app; [exact (miles_clean _ _ _ X)|]. change (clean ("V" ++ w)). apply clean_app; [reflexivity|exact (miles_clean _ _ _ Y)].
Qed.
Lemma numeral12_clean : forall s v, numeral12 s v -> clean s.
Proof. intros s v H. apply numeral12_iff in H. destruct H as [_ D]. exact (decimal_clean _ _ D). Qed.
Lemma fraction_clean : forall s v, fractionStrToUint s 0 (slen s) = Ok (Some v) -> clean s.
Proof.
  intros s (a & b) H. pose proof (fraction_parse "" s "" a b) as P. cbn [String.append] in P. rewrite app_empty_r in P. apply P in H.
  destruct H as (n & d & -> & N & D). apply clean_app; [exact (numeral12_clean _ _ N)|]. apply (clean_app "/" d); [reflexivity|exact (numeral12_clean _ _ D)].
Qed.
Lemma max_fraction_clean : forall g s n v, Vis_appendVariableMaxFraction g s n = Ok (Some v) -> clean s.
Proof. intros g s n v H. unfold Vis_appendVariableMaxFraction in H. apply may_inv in H. destruct H as (x & X & _). exact (fraction_clean _ _ X). Qed.
Lemma ac_trend : forall s part md g g', TrendGroup_append g s part md = Ok (g', APPENDED) -> clean s.
Proof. intros s part md g g' H; unfold TrendGroup_append in H; cbv beta zeta in H. clean_all; try (eapply pc_trend; eassumption). Qed.
Lemma ac_wind : forall s part md g g', WindGroup_append g s part md = Ok (g', APPENDED) -> clean s.
Proof. intros s part md g g' H; unfold WindGroup_append, Wind_appendVariableSector, Wind_parseVariableSector, Wind_appendPeakWind, Wind_appendWindShift in H; cbv beta zeta in H. clean_all; (eapply uint_clean; [eassumption|apply Nat.eqb_eq; assumption]). Qed.
Lemma ac_visibility : forall s part md g g', VisibilityGroup_append g s part md = Ok (g', APPENDED) -> clean s.
Proof. intros s part md g g' H; unfold VisibilityGroup_append, Vis_appendFractionToIncompleteInteger, Vis_appendDirection, Vis_appendRunway, Vis_appendInteger, Vis_appendFraction, Vis_appendMeters, Vis_appendVariableMeters in H; cbv beta zeta in H. clean_all; first [eapply variable_clean; eassumption|eapply max_fraction_clean; eassumption]. Qed.
Lemma ac_cloud : forall s part md g g', CloudGroup_append g s part md = Ok (g', APPENDED) -> clean s.
Proof. intros s part md g g' H; unfold CloudGroup_append, Cloud_appendVariableCloudAmount, Cloud_appendCeiling, Cloud_appendRunwayOrCardinalDirection, Cloud_appendObscuration, Cloud_amountFromString in H; cbv beta zeta in H. clean_all;
  match goal with H : context [has_value (Direction_fromCardinalString s ?a ?b)] |- _ => destruct (Direction_fromCardinalString s a b) eqn:C; [exact (cardinal_clean _ _ _ _ C)|discriminate H] end. Qed.
Lemma ac_weather : forall s part md g g', WeatherGroup_append g s part md = Ok (g', APPENDED) -> clean s.
Proof. intros s part md g g' H; unfold WeatherGroup_append, Weather_parseWeatherWithoutEvent in H; cbv beta zeta in H. clean_all. Qed.
Lemma ac_temperature : forall s part md g g', TemperatureGroup_append g s part md = Ok (g', APPENDED) -> clean s.
Proof. intros s part md g g' H; unfold TemperatureGroup_append in H; cbv beta zeta in H. clean_all. Qed.
Lemma ac_pressure : forall s part md g g', PressureGroup_append g s part md = Ok (g', APPENDED) -> clean s.
Proof. intros s part md g g' H; unfold PressureGroup_append in H; cbv beta zeta in H. clean_all. Qed.
Lemma ac_minmax : forall s part md g g', MinMaxTemperatureGroup_append g s part md = Ok (g', APPENDED) -> clean s.
Proof. intros s part md g g' H; unfold MinMaxTemperatureGroup_append, MinMax_append6hourly, MinMax_appendForecast, MinMax_fromForecast, MinMax_from6hourly in H; cbv beta zeta in H. clean_all. Qed.
Lemma ac_precipitation : forall s part md g g', PrecipitationGroup_append g s part md = Ok (g', APPENDED) -> clean s.
Proof. intros s part md g g' H; unfold PrecipitationGroup_append in H; cbv beta zeta in H. clean_all. Qed.
Lemma ac_layer : forall s part md g g', LayerForecastGroup_append g s part md = Ok (g', APPENDED) -> clean s.
Proof. intros s part md g g' H; unfold LayerForecastGroup_append in H; cbv beta zeta in H. clean_all. Qed.
Lemma ac_cloudtypes : forall s part md g g', CloudTypesGroup_append g s part md = Ok (g', APPENDED) -> clean s.
Proof. intros s part md g g' H; unfold CloudTypesGroup_append in H; cbv beta zeta in H. clean_all. Qed.
Lemma ac_vicinity : forall s part md g g', VicinityGroup_append g s part md = Ok (g', APPENDED) -> clean s.
Proof. intros s part md g g' H; unfold VicinityGroup_append, Vicinity_appendDistance, Vicinity_appendDir1, Vicinity_appendDir2 in H; cbv beta zeta in H. clean_all. Qed.
Lemma ac_misc : forall s part md g g', MiscGroup_append g s part md = Ok (g', APPENDED) -> clean s.
Proof. intros s part md g g' H; unfold MiscGroup_append, Misc_appendHailstoneFraction in H; cbv beta zeta in H. clean_all.
  - match goal with E : Misc_appendDensityAltitude _ _ = _ |- _ => apply density_value in E; destruct E as (d & v & x & -> & _ & D & _) end.
    apply clean_app; [exact (decimal_clean _ _ D)|reflexivity].
  - destruct s as [|c [|c' s]]; try discriminate. match goal with E : sget _ _ = Ok _ |- _ => cbn in E; injection E as <- end.
    match goal with A : N.leb 49 _ = true, B : N.leb _ 57 = true |- _ => clear - A B end.
    unfold clean. cbn [str_all]. rewrite andb_true_r. unfold metar_char. cbv zeta. unfold code in *.
    replace (N.leb 48 (N_of_ascii c) && N.leb (N_of_ascii c) 57) with true; [rewrite orb_true_r; reflexivity|].
    symmetry. apply andb_true_intro. split; [|assumption]. apply N.leb_le. apply N.leb_le in H0. lia.
  Qed.

Lemma ac_lightning : forall s part md g g', LightningGroup_append g s part md = Ok (g', APPENDED) -> clean s \/ lightning_word s.
Proof.
  intros s part md g g' H; unfold LightningGroup_append in H. destruct (lt_incomplete g).
  - apply bind_ok in H. destruct H as (l & L & H). destruct l as [l|]; [right; exact (ltg_group _ _ L)|discriminate H].
  - left. clean_all.
Qed.

(** ** All words of a group *)
Lemma parsed_clean : forall g s part md, parsed_as g s part md -> clean s \/ (about_lightning g /\ lightning_word s).
Proof.
  intros g s part md P; destruct g; cbn [parsed_as] in P; try contradiction;
  try (apply pc_lightning in P; destruct P as [P|P]; [left; exact P|right; split; [exact I|exact P]]); left;
  first [eapply pc_keyword; exact P|eapply pc_location; exact P|eapply pc_time; exact P|eapply pc_trend; exact P|eapply pc_wind; exact P
  |eapply pc_visibility; exact P|eapply pc_cloud; exact P|eapply pc_weather; exact P|eapply pc_temperature; exact P|eapply pc_pressure; exact P
  |eapply pc_runwaystate; exact P|eapply pc_seasurface; exact P|eapply pc_minmax; exact P|eapply pc_precipitation; exact P|eapply pc_layer; exact P
  |eapply pc_tendency; exact P|eapply pc_cloudtypes; exact P|eapply pc_lowmidhigh; exact P|eapply pc_vicinity; exact P|eapply pc_misc; exact P].
Qed.
Lemma append_clean : forall g s part md g', Group_append g s part md = Ok (g', APPENDED) -> is_fallback g' = false ->
  clean s \/ (about_lightning g' /\ lightning_word s).
Proof.
  intros g s part md g' A F. apply appended_inv in A. destruct g, g'; try contradiction; cbn [appended_as] in A; try discriminate F;
  try (apply ac_lightning in A; destruct A as [A|A]; [left; exact A|right; split; [exact I|exact A]]);
  try discriminate A; left;
  first [eapply ac_trend; exact A|eapply ac_wind; exact A
  |eapply ac_visibility; exact A|eapply ac_cloud; exact A|eapply ac_weather; exact A|eapply ac_temperature; exact A|eapply ac_pressure; exact A
  |eapply ac_minmax; exact A|eapply ac_precipitation; exact A|eapply ac_layer; exact A
  |eapply ac_cloudtypes; exact A|eapply ac_vicinity; exact A|eapply ac_misc; exact A].
Qed.
Lemma lightning_index : forall g g', Group_index g = Group_index g' -> about_lightning g -> about_lightning g'.
Proof. intros g g' E L; destruct g, g'; try contradiction; try discriminate E; exact I. Qed.
Lemma built_clean : forall part ws g, Built part ws g -> is_fallback g = false ->
  forall w, In w ws -> clean w \/ (about_lightning g /\ lightning_word w).
Proof.
  intros part ws g H; induction H as [w md g G|w md g g' B IH G|ws w md g g' B IH A|ws w part' md g g' B IH A|ws]; intros F x X.
  - apply GroupParser_parse_inv in G. destruct G as [[-> |P] _]; [discriminate|]. destruct X as [<-|[]]. exact (parsed_clean _ _ _ _ P).
  - apply GroupParser_reparse_inv in G. destruct G as [-> |[P _]]; [discriminate|]. destruct X as [<-|[]]. exact (parsed_clean _ _ _ _ P).
  - pose proof (append_index _ _ _ _ _ _ A) as I. apply in_app_or in X. destruct X as [X|[<-|[]]].
    + destruct (IH ltac:(destruct g, g'; try reflexivity; discriminate) x X) as [C|[L C]]; [left; exact C|right; split; [|exact C]].
      eapply lightning_index; [|exact L]; congruence.
    + exact (append_clean _ _ _ _ _ A F).
  - pose proof (append_index _ _ _ _ _ _ A) as I.
    destruct (IH ltac:(destruct g, g'; try reflexivity; discriminate) x X) as [C|[L C]]; [left; exact C|right; split; [|exact C]].
      eapply lightning_index; [|exact L]; congruence.
  - discriminate F.
Qed.

Lemma alphabet : forall sgn report groupLimit r, parse sgn report groupLimit = Ok r ->
  forall g part raw, In (mkGroupInfo g part raw) (pr_groups r) -> ~ not_understood g ->
  forall w, In w (words_of raw) -> metar_word w \/ (about_lightning g /\ lightning_word w).
Proof.
  intros sgn report groupLimit r P g part raw I N w W.
  destruct (string_dec raw "") as [-> |X]; [destruct W|].
  pose proof (built_from_words _ _ _ _ P _ _ _ I X) as B.
  destruct (built_clean _ _ _ B ltac:(destruct g; try reflexivity; destruct N; exact Logic.I) w W) as [C|C]; [left; exact (clean_word _ C)|right; exact C].
Qed.
Lemma alphabet_refuted : ~ forall sgn report groupLimit r, parse sgn report groupLimit = Ok r ->
  forall g part raw, In (mkGroupInfo g part raw) (pr_groups r) -> ~ not_understood g ->
  forall w, In w (words_of raw) -> metar_word w.
Proof.
  intros H.
  destruct (parse true "METAR ZZZZ 010000Z RMK LTGa" 100) as [r|] eqn:P; [|vm_compute in P; discriminate P].
  assert (X : exists g, nth_error (pr_groups r) 4 = Some (mkGroupInfo (GLightning g) RP_RMK "LTGa")).
  { vm_compute in P. injection P as <-. eexists. reflexivity. }
  destruct X as (g & X). apply nth_error_In in X.
  specialize (H _ _ _ _ P _ _ _ X (fun F => F) "LTGa" (or_introl eq_refl) "LTG" "a"%char "" eq_refl). discriminate H.
Qed.
