(** The weather summary: it always comes out, and its values are those the groups give. *)
From Coq Require Import Lia ZArith NArith QArith Qabs List.
From Verif Require Import Prim Lib Regex Float Values Weather Groups1 Groups2 Groups3 Groups4 Parser Summary.
From Verif Require Import SpecNumeral SpecReal SpecUnits SpecReach SpecWeather SpecSumNumbers SpecSummary.
From Verif Require Import Pf_Ok Pf_Numeral Pf_Values1 Pf_Values5 Pf_Parsed Pf_Kinds Pf_Decode Pf_Refuse Pf_Weather Pf_OkGroups3 Pf_Total Pf_Bounded Pf_Index.
From Verif Require Pf_SumTable Pf_SumRange.
Import ListNotations.

(** *** More bounds *)
Lemma dir_small : forall s d, Direction_fromDegreesString s = Ok (Some d) -> (dirDegrees d < 1000)%N.
Proof.
  intros s d H. apply degrees_parse in H. destruct H as [[_ ->]|[[_ ->]|(v & N & _ & ->)]]; try reflexivity.
  pose proof (numeral_bound _ _ _ N) as B. exact B.
Qed.
Lemma wind_dir : forall k, Reachable (GWind k) -> (dirDegrees (wi_dir k) < 1000)%N.
Proof.
  apply (reach_Wind (fun k => (dirDegrees (wi_dir k) < 1000)%N)).
  - intros s part md k H. unfold WindGroup_parse, or_else, Wind_parseVariableSector, Wind_parseSurfaceOrShear in H.
    peel_all H; deep; cbn; try reflexivity; eauto using dir_small.
    all: try (match goal with |- (dirDegrees (match ?o with _ => _ end) < _)%N => destruct o end; eauto using dir_small; reflexivity).
  - intros k s part md k' a _ I H. unfold WindGroup_append, Wind_appendVariableSector, Wind_appendPeakWind, Wind_appendWindShift in H.
    peel_all H; cbn; eauto using dir_small.
    all: try (match goal with |- (dirDegrees (match ?o with _ => _ end) < _)%N => destruct o eqn:?O end; subst; eauto using dir_small; reflexivity).
Qed.
Lemma report_time : forall k, Reachable (GReportTime k) ->
  (hourValue (rt_t k) < 100)%N /\ (minuteValue (rt_t k) < 100)%N /\ (forall d, dayValue (rt_t k) = Some d -> (d < 100)%N).
Proof.
  apply reach_ReportTime.
  - intros s part md k H. unfold ReportTimeGroup_parse in H. peel_all H; cbn [rt_t].
    match goal with X : MetafTime_fromStringDDHHMM _ = _ |- _ => apply time_parse in X; destruct X as [(hs & ms & xx & yy & _ & N1 & N2 & ->)|(ds & hs & ms & zz & xx & yy & _ & N0 & N1 & N2 & ->)] end.
    all: pose proof (numeral_bound _ _ _ N1); pose proof (numeral_bound _ _ _ N2); cbn in *.
    + repeat split; try assumption; intros d X; discriminate X.
    + pose proof (numeral_bound _ _ _ N0). repeat split; try assumption. intros d' X. injection X as <-. assumption.
  - intros k s part md k' a _ I H. unfold ReportTimeGroup_append in H. injection H as <- _. exact I.
Qed.

(** *** The value said last *)
Lemma last_nil : forall (A : Type) (says : list Group -> Group -> A -> Prop) none, last_said says none [] none.
Proof. intros A says none. left. split; [reflexivity|]. intros b g a E. destruct b; discriminate. Qed.
Lemma snoc_split : forall (A : Type) (gs : list A) g before h after, (gs ++ [g])%list = (before ++ h :: after)%list ->
  (after = [] /\ before = gs /\ h = g) \/ exists t, after = (t ++ [g])%list /\ gs = (before ++ h :: t)%list.
Proof.
  intros A gs g before h after E. destruct (rev after) as [|x t] eqn:R.
  - left. assert (after = []) by (rewrite <- (rev_involutive after), R; reflexivity). subst after.
    apply app_inj_tail in E. destruct E as [-> ->]. auto.
  - right. assert (A1 : after = (rev t ++ [x])%list) by (rewrite <- (rev_involutive after), R; reflexivity). subst after.
    change (before ++ h :: rev t ++ [x])%list with (before ++ (h :: rev t) ++ [x])%list in E. rewrite app_assoc in E.
    apply app_inj_tail in E. destruct E as [-> ->]. exists (rev t). auto.
Qed.
Lemma last_says : forall (A : Type) (says : list Group -> Group -> A -> Prop) none gs g a,
  says gs g a -> last_said says none (gs ++ [g])%list a.
Proof.
  intros A says none gs g a H. right. exists gs, g, []. split; [reflexivity|]. split; [exact H|].
  intros b h r E. destruct b; discriminate.
Qed.
Lemma last_silent : forall (A : Type) (says : list Group -> Group -> A -> Prop) none gs g a,
  last_said says none gs a -> (forall b, ~ says gs g b) -> last_said says none (gs ++ [g])%list a.
Proof.
  intros A says none gs g a [[-> H]|(before & h & after & -> & S & N)] Q.
  - left. split; [reflexivity|]. intros b h r E. apply snoc_split in E. destruct E as [(-> & -> & ->)|(t & -> & E)]; [exact Q|exact (H _ _ _ E)].
  - right. exists before, h, (after ++ [g])%list. split; [rewrite <- app_assoc; reflexivity|]. split; [exact S|].
    intros b k r E. apply snoc_split in E. destruct E as [(-> & -> & ->)|(t & -> & E)]; [exact Q|exact (N _ _ _ E)].
Qed.
Lemma last_either : forall (A : Type) (says : list Group -> Group -> A -> Prop) none gs g a a',
  last_said says none gs a -> (a' = a /\ forall b, ~ says gs g b) \/ says gs g a' -> last_said says none (gs ++ [g])%list a'.
Proof. intros A says none gs g a a' L [[-> Q]|S]; [apply last_silent; assumption|apply last_says; exact S]. Qed.

(** *** Assignments *)
Lemma assign_speed : forall imperial s old, speed_small s ->
  exists z, assign_flt old (Speed_toUnit s (sum_speedUnit imperial)) = Ok z
    /\ (z = old /\ speedValue s = None \/ speed_says imperial s z).
Proof.
  intros imperial [o u] old [E|(n & E & L)]; cbn [speedValue] in E; subst o.
  - exists old. split; [reflexivity|]. left. auto.
  - destruct (Pf_SumTable.speed_shown n u imperial L) as (x & X & T). rewrite X. eexists. split; [exact T|]. right.
    exists n. split; [reflexivity|]. destruct imperial; reflexivity.
Qed.
Lemma speed_none : forall imperial s, speedValue s = None -> forall z, ~ speed_says imperial s z.
Proof. intros imperial s E z (n & F & _). congruence. Qed.
Lemma assign_distance : forall imperial d old, dist_small d ->
  exists z, assign_flt old (Distance_toUnit d (sum_visibilityUnit imperial)) = Ok z
    /\ (z = old /\ dist d = None \/ distance_says imperial d z).
Proof.
  intros imperial d old S. destruct (dist d) as [n|] eqn:E.
  - destruct (Pf_SumRange.dist_about d imperial n E S) as (x & z & X & Z & A). rewrite X. exists z. split; [exact Z|]. right.
    exists n. split; [exact E|]. split; [destruct imperial; exact A|].
    intros U ->. destruct S as [N|(n' & E' & L & [M|M])]; [congruence|congruence|]. rewrite E in E'. injection E' as <-.
    destruct d as [m o u]. cbn [dist distUnit] in *. subst o u.
    assert (X' : x = f32_of_N n) by (cbn in X; injection X as <-; reflexivity). subst x.
    rewrite Pf_SumRange.integer_shown in Z by lia. injection Z as <-. reflexivity.
  - exists old. split; [|left; auto]. destruct d as [m o u]. cbn [dist] in E. subst o. destruct imperial; reflexivity.
Qed.
Lemma assign_temperature : forall imperial t old, temp_read t ->
  exists z, assign_flt old (Temperature_toUnit t (sum_temperatureUnit imperial)) = Ok z
    /\ (z = old /\ tempValue t = None \/ temperature_says imperial t z).
Proof.
  intros imperial t old R. destruct (tempValue t) as [v|] eqn:E.
  - destruct (Pf_SumTable.temp_shown t v (sum_temperatureUnit imperial) R E) as (x & X & T). rewrite X. eexists. split; [exact T|]. right.
    exists v. split; [exact E|]. destruct imperial; reflexivity.
  - exists old. split; [|left; auto]. unfold Temperature_toUnit, Temperature_temperature. rewrite E. reflexivity.
Qed.
Lemma temperature_none : forall imperial t, tempValue t = None -> forall z, ~ temperature_says imperial t z.
Proof. intros imperial s E z (n & F & _). congruence. Qed.
Lemma assign_whole : forall o old z, assign_flt old o = Ok z -> o = None /\ z = old \/ whole_of o z.
Proof.
  intros [x|] old z H; cbn [assign_flt] in H; [right|injection H as <-; auto].
  destruct (Pf_SumRange.trunc_whole x z H) as (v & V & ->). exists x, v. auto.
Qed.
Lemma assign_pressure : forall imperial p old s, Pressure_fromString s = Ok (Some p) ->
  exists z, assign_flt old (Pf_SumRange.shown_pressure imperial p) = Ok z
    /\ (z = old /\ pressureValue p = None \/ pressure_says imperial p z).
Proof.
  intros imperial p old s H. apply pressure_parse in H.
  destruct H as [[_ ->]|[[_ ->]|[(d & n & _ & N & ->)|(d & n & _ & N & ->)]]].
  - exists old. split; [destruct imperial; reflexivity|left; auto].
  - exists old. split; [destruct imperial; reflexivity|left; auto].
  - pose proof (numeral_bound _ _ _ N) as B. change (10 ^ N.of_nat 4)%N with 10000%N in B.
    destruct (Pf_SumRange.inches_said n imperial B) as (x & z & X & Z & A).
    unfold inHgDecimalPointShift. rewrite X. exists z. split; [exact Z|]. right. exists n. split; [exact B|]. right. auto.
  - pose proof (numeral_bound _ _ _ N) as B. change (10 ^ N.of_nat 4)%N with 10000%N in B.
    destruct (Pf_SumRange.hecto_said n imperial B) as (x & z & X & Z & A & E).
    rewrite X. exists z. split; [exact Z|]. right. exists n. split; [exact B|]. left. auto.
Qed.

(** *** The weather symbols always exist *)
Lemma phenomena_ok : forall q d l, Forall proper_w l -> exists r, phenomena_loop q d l = Ok r.
Proof.
  intros q d l H. induction H as [|w l P _ (r & IH)]; cbn [phenomena_loop]; [eauto|].
  assert (exists c, phenomenaFromWeatherGroup q d w = Ok c) as (c & C) by (destruct w; cbn [phenomenaFromWeatherGroup]; eauto; destruct P).
  rewrite C, IH. cbn [bind]. eauto.
Qed.
Lemma weather_loop_ok : forall l, Forall wp_wf l -> exists r, weather_loop l = Ok r.
Proof.
  intros l H. induction H as [|p l (q & d & w & e & (Q & D & W & _) & _ & _ & P & _) _ (r & IH)]; cbn [weather_loop]; [eauto|].
  assert (exists c, weatherFromWeatherPhenomena (Wp_qualifier p) (Wp_descriptor p) (Wp_weather p) = Ok c) as (c & C).
  { unfold weatherFromWeatherPhenomena. rewrite W. destruct (WpQualifier_beq _ _); [eauto|].
    destruct (WpDescriptor_beq _ _); [|apply phenomena_ok; exact P].
    destruct (phenomena_ok (Wp_qualifier p) D_NONE w P) as (r' & E). rewrite E. cbn [bind]. eauto. }
  rewrite C, IH. cbn [bind]. eauto.
Qed.
Lemma group_weather_ok : forall k, Reachable (GWeather k) -> exists r, weather_loop (WeatherGroup_weatherPhenomena k) = Ok r.
Proof. intros k R. apply reachable_inv in R. apply weather_loop_ok. apply R. Qed.

(** *** Temperatures *)
Lemma no_value : forall t u, tempValue t = None -> Temperature_toUnit t u = None.
Proof. intros t u E. unfold Temperature_toUnit, Temperature_temperature. rewrite E. reflexivity. Qed.
Lemma a_value : forall t u, Temperature_toUnit t u = None -> tempValue t = None.
Proof.
  intros t u H. unfold Temperature_toUnit, Temperature_temperature in H. destruct (tempValue t); [|reflexivity].
  destruct (precise t), u; discriminate H.
Qed.
Lemma heat_ok : forall pow air dew, pow_sane pow -> temp_read air -> temp_read dew -> exists h, Temperature_heatIndexDP pow air dew = Ok h.
Proof.
  intros pow air dew S A D. destruct A as [-> |(sa & A)]; [eexists; apply heat_index_dew_none; auto|].
  destruct D as [-> |(sd & D)]; [eexists; apply heat_index_dew_none; auto|]. exact (heat_index_parsed pow sa sd air dew S A D).
Qed.
Lemma chill_ok : forall pow air wind, pow_sane pow -> temp_read air -> speed_small wind -> exists h, Temperature_windChill pow air wind = Ok h.
Proof.
  intros pow air wind S A W. destruct A as [-> |(sa & A)]; [eexists; apply wind_chill_unreported; auto|].
  apply parsed_temperature in A. destruct A as [A|(za & A & La)]; [eexists; apply wind_chill_unreported; auto|].
  destruct wind as [o u]. destruct W as [W|(n & W & L)]; cbn [speedValue] in W; subst o; [eexists; apply wind_chill_unreported; auto|].
  destruct (wind_chill_range pow air za n u S A) as (h & E & _); [|lia|exists h; exact E].
  eapply Qle_trans; [exact La|discriminate].
Qed.
Lemma computed_ok : forall t imperial old, Pf_SumRange.temp_fits t ->
  exists z, assign_flt old (Temperature_toUnit t (sum_temperatureUnit imperial)) = Ok z.
Proof.
  intros t imperial old F. destruct (Temperature_toUnit t (sum_temperatureUnit imperial)) as [x|] eqn:E; cbn [assign_flt]; [|eauto].
  exact (F _ _ E).
Qed.
Lemma summary_temperature_ok : forall pow imperial wind k w, pow_tame pow -> Reachable (GTemperature k) -> speed_small wind ->
  exists w', summary_temperature pow imperial wind k w = Ok w'.
Proof.
  intros pow imperial wind k w T R W. pose proof (temperature_read k R) as [A D]. unfold summary_temperature.
  destruct (assign_temperature imperial (tg_t k) (cw_airTemperature w) A) as (t & E1 & _).
  destruct (assign_temperature imperial (tg_t k) (cw_perceivedTemperature w) A) as (p & E2 & _).
  rewrite E1, E2. cbn [bind].
  assert (exists rh, assign_flt (cw_relativeHumidity w) (TemperatureGroup_relativeHumidity pow k) = Ok rh) as (rh & E3).
  { destruct (TemperatureGroup_relativeHumidity pow k) as [x|] eqn:E; cbn [assign_flt]; [|eauto].
    exact (Pf_SumRange.humidity_fits pow _ _ _ T A D E). }
  rewrite E3. cbn [bind].
  destruct (chill_ok pow (tg_t k) wind (proj1 T) A W) as (c & C). rewrite C. cbn [bind].
  destruct (computed_ok c imperial p (Pf_SumRange.chill_fits _ _ _ _ C)) as (p2 & E4). rewrite E4. cbn [bind].
  destruct (heat_ok pow (tg_t k) (tg_dp k) (proj1 T) A D) as (h & H). rewrite H. cbn [bind].
  destruct (computed_ok h imperial p2 (Pf_SumRange.heat_fits _ _ _ _ H)) as (p3 & E5). rewrite E5. cbn [bind]. eauto.
Qed.
Lemma summary_wind_ok : forall imperial k w, Reachable (GWind k) -> exists w', summary_wind imperial k w = Ok w'.
Proof.
  intros imperial k w R. destruct (wind_speeds k R) as [S G]. unfold summary_wind.
  destruct (assign_speed imperial _ (cw_windSpeed w) S) as (z & E & _). destruct (assign_speed imperial _ (cw_gustSpeed w) G) as (z' & E' & _).
  rewrite E, E'. cbn [bind]. eauto.
Qed.
Lemma summary_keyword_ok : forall imperial k w, exists w', summary_keyword imperial k w = Ok w'.
Proof.
  intros imperial k w. unfold summary_keyword. destruct (KwType_beq _ _); [|eauto].
  destruct (assign_distance imperial (Distance_cavokVisibility false) (cw_visibility w)) as (z & E & _); [apply d_small; lia|].
  rewrite E. cbn [bind]. eauto.
Qed.
Lemma summary_pressure_ok : forall imperial k w, Reachable (GPressure k) -> exists w', summary_pressure imperial k w = Ok w'.
Proof.
  intros imperial k w R. unfold summary_pressure. destruct (PgType_beq _ _) eqn:E; [|eauto].
  apply internal_PgType_dec_bl in E. destruct (qnh_read k R E) as (s & P).
  destruct (assign_pressure imperial _ (cw_atmosphericPressure w) s P) as (z & Z & _).
  change (exists w', bind (assign_flt (cw_atmosphericPressure w) (Pf_SumRange.shown_pressure imperial (pg_p k))) (fun v => Ok (cw_set_pressure w v)) = Ok w').
  rewrite Z. cbn [bind]. eauto.
Qed.
Lemma visibility_ok : forall imperial k old, Reachable (GVisibility k) ->
  exists z, assign_flt old (Distance_toUnit (VisibilityGroup_visibility k) (sum_visibilityUnit imperial)) = Ok z
    /\ (z = old /\ dist (VisibilityGroup_visibility k) = None \/ distance_says imperial (VisibilityGroup_visibility k) z).
Proof.
  intros imperial k old R. apply assign_distance. apply visibility_small in R. unfold VisibilityGroup_visibility.
  destruct (Vis_isVariable _); [exact d_default|apply R].
Qed.
Lemma metar_loop_ok : forall pow imperial gs, pow_tame pow -> Forall Reachable gs -> forall wind w, speed_small wind ->
  exists w', metar_loop pow imperial wind gs w = Ok w'.
Proof.
  intros pow imperial gs T R. induction R as [|g gs Rg _ IH]; intros wind w S; [eexists; reflexivity|].
  destruct g; cbn [metar_loop]; eauto.
  - destruct (summary_keyword_ok imperial g w) as (w' & ->). cbn [bind]. eauto.
  - destruct (is_surface_wind _); [|eauto]. destruct (summary_wind_ok imperial g w Rg) as (w' & ->). cbn [bind].
    apply IH. apply (wind_speeds g Rg).
  - destruct (is_prevailing _); cbn [bind]; [|eauto]. destruct (visibility_ok imperial g (cw_visibility w) Rg) as (z & -> & _). cbn [bind]. eauto.
  - destruct (WxType_beq _ _); [|eauto]. destruct (group_weather_ok g Rg) as (l & ->). cbn [bind]. eauto.
  - destruct (summary_temperature_ok pow imperial wind g w T Rg S) as (w' & ->). cbn [bind]. eauto.
  - destruct (summary_pressure_ok imperial g w Rg) as (w' & ->). cbn [bind]. eauto.
Qed.
Lemma taf_loop_ok : forall imperial gs, Forall Reachable gs -> forall n w, exists w', taf_loop imperial n gs w = Ok w'.
Proof.
  intros imperial gs R. induction R as [|g gs Rg _ IH]; intros n w; [eexists; reflexivity|].
  destruct g; cbn [taf_loop]; eauto.
  - destruct (summary_keyword_ok imperial g w) as (w' & ->). cbn [bind]. eauto.
  - destruct (Nat.ltb _ _); eauto.
  - destruct (summary_wind_ok imperial g w Rg) as (w' & ->). cbn [bind]. eauto.
  - destruct (visibility_ok imperial g (cw_visibility w) Rg) as (z & -> & _). cbn [bind]. eauto.
  - destruct (group_weather_ok g Rg) as (l & ->). cbn [bind]. eauto.
Qed.
Lemma minmax_loop_read : forall gs, Forall Reachable gs -> forall low high, temp_read low -> temp_read high ->
  temp_read (fst (minmax_loop gs low high)) /\ temp_read (snd (minmax_loop gs low high)).
Proof.
  intros gs R. induction R as [|g gs Rg _ IH]; intros low high L H; [split; assumption|].
  destruct g; cbn [minmax_loop]; auto. apply IH; apply (minmax_read _ Rg).
Qed.
Lemma forecast_ok : forall imperial gs w, Forall Reachable gs -> exists w', temperatureForecastFromTaf w gs imperial = Ok w'.
Proof.
  intros imperial gs w R. unfold temperatureForecastFromTaf. cbv zeta.
  pose proof (minmax_loop_read gs R Temperature_default Temperature_default (or_introl eq_refl) (or_introl eq_refl)) as [L H].
  destruct (minmax_loop gs Temperature_default Temperature_default) as [low high]. cbn [fst snd] in *.
  destruct (assign_temperature imperial low (cw_airTemperatureLow w) L) as (z & -> & _).
  destruct (assign_temperature imperial high (cw_airTemperatureHigh w) H) as (z' & -> & _). cbn [bind]. eauto.
Qed.
Lemma parseReport_ok : forall sgn report type, exists gs, parseReport sgn report type = Ok gs /\ Forall Reachable gs.
Proof.
  intros sgn report type. unfold parseReport. destruct (parse_returns sgn report default_groupLimit) as (r & E). rewrite E. cbn [bind].
  destruct (_ || _)%bool; [eauto|]. eexists. split; [reflexivity|]. apply Forall_forall. intros g G. apply in_map_iff in G.
  destruct G as (i & <- & I). exact (parse_reachable _ _ _ _ _ E I).
Qed.
Theorem summary_returns : forall pow, pow_tame pow -> forall sgn metar taf year month day imperial,
  exists w, getCurrentWeather pow sgn metar taf year month day imperial = Ok w.
Proof.
  intros pow T sgn metar taf year month day imperial. unfold getCurrentWeather.
  destruct (parseReport_ok sgn metar RT_METAR) as (ms & -> & Rm). destruct (parseReport_ok sgn taf RT_TAF) as (ts & -> & Rt). cbn [bind].
  assert (exists w, match ms with
    | [] => let! w := currentWeatherFromTaf imperial ts in Ok (reportReleaseTime w ts year month day)
    | _ :: _ => let! w := currentWeatherFromMetar pow imperial ms in Ok (reportReleaseTime w ms year month day)
    end = Ok w) as (w & W).
  { destruct ms as [|m ms].
    - destruct (taf_loop_ok imperial ts Rt 0 cw_default) as (w & E). unfold currentWeatherFromTaf. rewrite E. cbn [bind]. eauto.
    - destruct (metar_loop_ok pow imperial (m :: ms) T Rm Speed_default cw_default small_default) as (w & E). unfold currentWeatherFromMetar. rewrite E. cbn [bind]. eauto. }
  rewrite W. cbn [bind]. apply forecast_ok. exact Rt.
Qed.
