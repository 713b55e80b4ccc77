(** The values of the weather summary are those the groups give. *)
From Coq Require Import Lia ZArith NArith QArith Qabs List.
From Verif Require Import Prim Lib Regex Float Values Weather Groups1 Groups2 Groups3 Groups4 Parser Summary.
From Verif Require Import SpecNumeral SpecReal SpecUnits SpecReach SpecWeather SpecSumNumbers SpecSummary.
From Verif Require Import Pf_Ok Pf_Numeral Pf_Kinds Pf_Total Pf_Bounded Pf_Summary.
From Verif Require Pf_SumTable Pf_SumRange.
Import ListNotations.
Local Open Scope list_scope.

Definition quiet (W : WindGroup -> Prop) (V : VisibilityGroup -> Prop) (g : Group) : Prop :=
  match g with
  | GWind k => ~ W k | GVisibility k => ~ V k | GKeyword k => kw_t k <> Kw_CAVOK | GCloud _ => False | _ => True
  end.
Definition common_same (w w' : CurrentWeather) : Prop :=
  cw_windDirection w' = cw_windDirection w /\ cw_isWindVariable w' = cw_isWindVariable w
  /\ cw_windSpeed w' = cw_windSpeed w /\ cw_gustSpeed w' = cw_gustSpeed w
  /\ cw_visibility w' = cw_visibility w /\ cw_isStormClouds w' = cw_isStormClouds w.
Definition unread (g : Group) : Prop :=
  match g with GTemperature _ => False | GPressure k => pg_t k <> Pg_OBSERVED_QNH | _ => True end.
Definition observed_same (w w' : CurrentWeather) : Prop :=
  cw_airTemperature w' = cw_airTemperature w /\ cw_perceivedTemperature w' = cw_perceivedTemperature w
  /\ cw_relativeHumidity w' = cw_relativeHumidity w /\ cw_atmosphericPressure w' = cw_atmosphericPressure w.

Lemma flag_same : forall (P : Group -> Prop) gs g b, (b = true <-> exists h, In h gs /\ P h) -> ~ P g ->
  (b = true <-> exists h, In h (gs ++ [g]) /\ P h).
Proof.
  intros P gs g b H N. rewrite H. split; intros (h & I & K); exists h; split; try assumption; [apply in_or_app; auto|].
  apply in_app_or in I. destruct I as [I|[<- |[]]]; [exact I|contradiction].
Qed.
Lemma flag_or : forall (P : Group -> Prop) gs g b c, (b = true <-> exists h, In h gs /\ P h) -> (c = true <-> P g) ->
  ((if c then true else b) = true <-> exists h, In h (gs ++ [g]) /\ P h).
Proof.
  intros P gs g b c H N. destruct c.
  - split; [|reflexivity]. intros _. exists g. split; [apply in_or_app; right; left; reflexivity|apply N; reflexivity].
  - apply flag_same; [exact H|]. intros K. apply N in K. discriminate.
Qed.
(** The two flags, over groups *)
Definition variable_wind (W : WindGroup -> Prop) (g : Group) : Prop := exists k, g = GWind k /\ W k /\ dirType (wi_dir k) = DT_VARIABLE.
Definition storm_cloud (g : Group) : Prop := exists k, g = GCloud k /\ cl_conv k = Cv_CUMULONIMBUS.
Lemma variable_eq : forall W gs, (exists h, In h gs /\ variable_wind W h) <-> exists k, In (GWind k) gs /\ W k /\ dirType (wi_dir k) = DT_VARIABLE.
Proof. intros W gs. split; [intros (h & I & k & -> & K); eauto|intros (k & I & K)]. exists (GWind k). split; [exact I|]. exists k. auto. Qed.
Lemma storm_eq : forall gs, (exists h, In h gs /\ storm_cloud h) <-> exists k, In (GCloud k) gs /\ cl_conv k = Cv_CUMULONIMBUS.
Proof. intros gs. split; [intros (h & I & k & -> & K); eauto|intros (k & I & K)]. exists (GCloud k). split; [exact I|]. exists k. auto. Qed.

Ltac says_nothing := let b := fresh in let H := fresh in intros b H;
  unfold says_direction, says_speed, says_gust, says_visibility, says_temperature, says_perceived, says_humidity, says_pressure, wind_said, variable_wind, storm_cloud in H;
  repeat match type of H with
  | exists _, _ => destruct H as [? H]
  | _ \/ _ => destruct H as [H|H]
  | _ /\ _ => let E := fresh in destruct H as [E H]; try discriminate E; try (injection E as ->)
  end; try contradiction; try discriminate; try congruence.
Ltac not_flag := let H := fresh in intros H; destruct H as (? & H & ?); try discriminate H.

Lemma common_keep : forall i W V gs g w w', common_values i W V gs w -> quiet W V g -> common_same w w' -> common_values i W V (gs ++ [g]) w'.
Proof.
  intros i W V gs g w w' [C1 C2 C3 C4 C5 C6] Q (E1 & E2 & E3 & E4 & E5 & E6).
  rewrite <- variable_eq in C2. rewrite <- storm_eq in C6.
  split; rewrite ?E1, ?E2, ?E3, ?E4, ?E5, ?E6, <- ?variable_eq, <- ?storm_eq.
  1, 3, 4, 5: apply last_silent; [assumption|]; destruct g; cbn [quiet] in Q; says_nothing.
  - apply flag_same; [exact C2|]. destruct g; cbn [quiet] in Q; try not_flag. injection H as <-. tauto.
  - apply flag_same; [exact C6|]. destruct g; cbn [quiet] in Q; try not_flag. exact Q.
Qed.
Lemma observed_keep : forall pow i gs g w w', observed_values pow i gs w -> unread g -> observed_same w w' -> observed_values pow i (gs ++ [g]) w'.
Proof.
  intros pow i gs g w w' [C1 C2 C3 C4] Q (E1 & E2 & E3 & E4).
  split; rewrite ?E1, ?E2, ?E3, ?E4; apply last_silent; try assumption; destruct g; cbn [unread] in Q; says_nothing.
Qed.
Lemma wind_keep : forall gs g s, last_said wind_said Speed_default gs s -> (forall k, g = GWind k -> ~ surface_wind k) -> last_said wind_said Speed_default (gs ++ [g]) s.
Proof. intros gs g s L H. apply last_silent; [exact L|]. intros b (k & E & K & _). exact (H k E K). Qed.

Lemma wind_step : forall i (W : WindGroup -> Prop) V gs k w w', common_values i W V gs w -> Reachable (GWind k) -> W k ->
  summary_wind i k w = Ok w' -> common_values i W V (gs ++ [GWind k]) w' /\ observed_same w w'.
Proof.
  intros i W V gs k w w' [C1 C2 C3 C4 C5 C6] R Wk H. destruct (wind_speeds k R) as [S G]. unfold summary_wind in H.
  destruct (assign_speed i _ (cw_windSpeed w) S) as (z & E & D). destruct (assign_speed i _ (cw_gustSpeed w) G) as (z' & E' & D').
  rewrite E, E' in H. cbn [bind] in H. injection H as <-. split; [|repeat split].
  rewrite <- variable_eq in C2. rewrite <- storm_eq in C6.
  split; cbn [cw_set_wind cw_windDirection cw_isWindVariable cw_windSpeed cw_gustSpeed cw_visibility cw_isStormClouds]; rewrite <- ?variable_eq, <- ?storm_eq.
  - eapply last_either; [exact C1|]. destruct (Direction_degrees (wi_dir k)) as [n|] eqn:Dg; [right|left].
    + exists k, n. repeat split; try assumption. apply i32_small. pose proof (wind_dir k R). unfold Direction_degrees in Dg.
      destruct (negb _); [discriminate|]. injection Dg as <-. lia.
    + split; [reflexivity|]. says_nothing.
  - apply flag_or; [exact C2|]. split.
    + intros B. apply internal_DirType_dec_bl in B. exists k. auto.
    + intros (k' & X & _ & D0). injection X as <-. rewrite D0. reflexivity.
  - eapply last_either; [exact C3|]. destruct D as [[-> D]|D]; [left; split; [reflexivity|]|right; exists k; auto].
    intros b (k' & X & _ & Y). injection X as <-. exact (speed_none _ _ D _ Y).
  - eapply last_either; [exact C4|]. destruct D' as [[-> D']|D']; [left; split; [reflexivity|]|right; exists k; auto].
    intros b (k' & X & _ & Y). injection X as <-. exact (speed_none _ _ D' _ Y).
  - apply last_silent; [exact C5|]. says_nothing.
  - apply flag_same; [exact C6|]. not_flag.
Qed.
Lemma keyword_step : forall i W V gs k w w', common_values i W V gs w -> summary_keyword i k w = Ok w' ->
  common_values i W V (gs ++ [GKeyword k]) w' /\ observed_same w w'.
Proof.
  intros i W V gs k w w' C H. unfold summary_keyword in H. destruct (KwType_beq (kw_t k) Kw_CAVOK) eqn:B.
  - apply internal_KwType_dec_bl in B.
    assert (Z : assign_flt (cw_visibility w) (Distance_toUnit (Distance_cavokVisibility false) (sum_visibilityUnit i)) = Ok (if i then 6%Z else 10000%Z))
      by (destruct i; vm_compute; reflexivity).
    rewrite Z in H. cbn [bind] in H. injection H as <-. split; [|repeat split].
    destruct C as [C1 C2 C3 C4 C5 C6]. rewrite <- variable_eq in C2. rewrite <- storm_eq in C6.
    split; cbn [cw_set_cloud cw_set_visibility cw_windDirection cw_isWindVariable cw_windSpeed cw_gustSpeed cw_visibility cw_isStormClouds]; rewrite <- ?variable_eq, <- ?storm_eq.
    1, 3, 4: apply last_silent; [assumption|]; says_nothing.
    + apply flag_same; [exact C2|]. not_flag.
    + apply last_says. left. exists k. auto.
    + apply flag_same; [exact C6|]. not_flag.
  - injection H as <-. split; [|repeat split]. eapply common_keep; [exact C| |repeat split].
    cbn [quiet]. intros K. rewrite K in B. discriminate.
Qed.
Lemma visibility_step : forall i W (V : VisibilityGroup -> Prop) gs k w v, common_values i W V gs w -> Reachable (GVisibility k) -> V k ->
  assign_flt (cw_visibility w) (Distance_toUnit (VisibilityGroup_visibility k) (sum_visibilityUnit i)) = Ok v ->
  common_values i W V (gs ++ [GVisibility k]) (cw_set_visibility w v).
Proof.
  intros i W V gs k w v [C1 C2 C3 C4 C5 C6] R Vk H. rewrite <- variable_eq in C2. rewrite <- storm_eq in C6.
  destruct (visibility_ok i k (cw_visibility w) R) as (z & E & D). rewrite E in H. injection H as <-.
  split; cbn [cw_set_visibility cw_windDirection cw_isWindVariable cw_windSpeed cw_gustSpeed cw_visibility cw_isStormClouds]; rewrite <- ?variable_eq, <- ?storm_eq.
  1, 3, 4: apply last_silent; [assumption|]; says_nothing.
  - apply flag_same; [exact C2|]. not_flag.
  - eapply last_either; [exact C5|]. destruct D as [[-> D]|D]; [left; split; [reflexivity|]|right; right; exists k; auto].
    intros b [(k' & X & _)|(k' & X & _ & n & Y & _)]; [discriminate|]. injection X as <-. congruence.
  - apply flag_same; [exact C6|]. not_flag.
Qed.
Lemma cloud_step : forall i W V gs k w, common_values i W V gs w -> common_values i W V (gs ++ [GCloud k]) (summary_cloud k w).
Proof.
  intros i W V gs k w [C1 C2 C3 C4 C5 C6]. rewrite <- variable_eq in C2. rewrite <- storm_eq in C6.
  split; cbn [summary_cloud cw_set_cloud cw_windDirection cw_isWindVariable cw_windSpeed cw_gustSpeed cw_visibility cw_isStormClouds]; rewrite <- ?variable_eq, <- ?storm_eq.
  1, 3, 4, 5: apply last_silent; [assumption|]; says_nothing.
  - apply flag_same; [exact C2|]. not_flag.
  - apply flag_or; [exact C6|]. split.
    + intros B. apply internal_ClConv_dec_bl in B. exists k. auto.
    + intros (k' & X & D0). injection X as <-. rewrite D0. reflexivity.
Qed.
Lemma pressure_step : forall pow i gs k w w', observed_values pow i gs w -> Reachable (GPressure k) -> summary_pressure i k w = Ok w' ->
  observed_values pow i (gs ++ [GPressure k]) w' /\ common_same w w'.
Proof.
  intros pow i gs k w w' C R H. unfold summary_pressure in H. destruct (PgType_beq (pg_t k) Pg_OBSERVED_QNH) eqn:B.
  - apply internal_PgType_dec_bl in B. destruct (qnh_read k R B) as (s & P).
    destruct (assign_pressure i _ (cw_atmosphericPressure w) s P) as (z & Z & D).
    change (bind (assign_flt (cw_atmosphericPressure w) (Pf_SumRange.shown_pressure i (pg_p k))) (fun v => Ok (cw_set_pressure w v)) = Ok w') in H.
    rewrite Z in H. cbn [bind] in H. injection H as <-. split; [|repeat split]. destruct C as [C1 C2 C3 C4].
    split; cbn [cw_set_pressure cw_airTemperature cw_perceivedTemperature cw_relativeHumidity cw_atmosphericPressure].
    1, 2, 3: apply last_silent; [assumption|]; says_nothing.
    eapply last_either; [exact C4|]. destruct D as [[-> D]|D]; [left; split; [reflexivity|]|right; exists k; auto].
    intros b (k' & X & _ & n & _ & [(Y & _)|(Y & _)]); injection X as <-; rewrite Y in D; discriminate.
  - injection H as <-. split; [|repeat split]. eapply observed_keep; [exact C| |repeat split].
    cbn [unread]. intros K. rewrite K in B. discriminate.
Qed.
Lemma whole_none : forall z, ~ whole_of None z.
Proof. intros z (x & v & E & _). discriminate. Qed.
Lemma temperature_step : forall pow i gs k wind w w', observed_values pow i gs w -> last_said wind_said Speed_default gs wind ->
  Reachable (GTemperature k) -> summary_temperature pow i wind k w = Ok w' ->
  observed_values pow i (gs ++ [GTemperature k]) w' /\ common_same w w'.
Proof.
  intros pow i gs k wind w w' [C1 C2 C3 C4] L R H. pose proof (temperature_read k R) as [A D]. unfold summary_temperature in H.
  destruct (assign_temperature i (tg_t k) (cw_airTemperature w) A) as (t & E1 & D1).
  destruct (assign_temperature i (tg_t k) (cw_perceivedTemperature w) A) as (p & E2 & D2).
  rewrite E1, E2 in H. cbn [bind] in H.
  destruct (assign_flt (cw_relativeHumidity w) (TemperatureGroup_relativeHumidity pow k)) as [rh|] eqn:E3; [|discriminate]. cbn [bind] in H.
  destruct (Temperature_windChill pow (tg_t k) wind) as [chill|] eqn:E4; [|discriminate]. cbn [bind] in H.
  destruct (assign_flt p (Temperature_toUnit chill (sum_temperatureUnit i))) as [p2|] eqn:E5; [|discriminate]. cbn [bind] in H.
  destruct (Temperature_heatIndexDP pow (tg_t k) (tg_dp k)) as [heat|] eqn:E6; [|discriminate]. cbn [bind] in H.
  destruct (assign_flt p2 (Temperature_toUnit heat (sum_temperatureUnit i))) as [p3|] eqn:E7; [|discriminate]. cbn [bind] in H.
  injection H as <-. split; [|repeat split].
  apply assign_whole in E3, E5, E7.
  split; cbn [cw_set_temperature cw_airTemperature cw_perceivedTemperature cw_relativeHumidity cw_atmosphericPressure].
  - eapply last_either; [exact C1|]. destruct D1 as [[-> D1]|D1]; [left; split; [reflexivity|]|right; exists k; auto].
    intros b (k' & X & Y). injection X as <-. exact (temperature_none _ _ D1 _ Y).
  - eapply last_either; [exact C2|]. change (if i then Temp_F else Temp_C) with (sum_temperatureUnit i) in *.
    destruct E7 as [[N7 ->]|E7].
    2:{ right. exists k, wind, heat, chill. repeat (split; [assumption || reflexivity|]). left. exact E7. }
    apply a_value in N7. destruct E5 as [[N5 ->]|E5].
    2:{ right. exists k, wind, heat, chill. repeat (split; [assumption || reflexivity|]). right. left. auto. }
    apply a_value in N5. destruct D2 as [[-> D2]|D2].
    2:{ right. exists k, wind, heat, chill. repeat (split; [assumption || reflexivity|]). right. right. auto. }
    left. split; [reflexivity|]. intros b (k' & wind' & heat' & chill' & X & _ & H1 & H2 & Y). injection X as <-.
    rewrite E6 in H1. injection H1 as <-.
    assert (N8 : tempValue chill' = None).
    { rewrite (Pf_Index.wind_chill_unreported pow (tg_t k) wind' (or_introl D2)) in H2. injection H2 as <-. reflexivity. }
    unfold computed_says in Y. rewrite (no_value heat _ N7), (no_value chill' _ N8) in Y.
    destruct Y as [Y|[[_ Y]|(_ & _ & Y)]]; [exact (whole_none _ Y)|exact (whole_none _ Y)|exact (temperature_none _ _ D2 _ Y)].
  - eapply last_either; [exact C3|]. destruct E3 as [[N3 ->]|E3]; [left; split; [reflexivity|]|right; exists k; auto].
    intros b (k' & X & Y). injection X as <-. rewrite N3 in Y. exact (whole_none _ Y).
  - apply last_silent; [exact C4|]. says_nothing.
Qed.

(** *** The loops *)
Definition metar_inv pow i gs wind w : Prop :=
  common_values i surface_wind prevailing gs w /\ observed_values pow i gs w /\ last_said wind_said Speed_default gs wind.
Lemma surface_eq : forall t, is_surface_wind (wi_type t) = true <-> surface_wind t.
Proof. intros t. unfold is_surface_wind, surface_wind. destruct (wi_type t); cbn; split; intros H; try discriminate; try reflexivity; try tauto; repeat (destruct H as [H|H]; try discriminate H); try destruct H. Qed.
Lemma prevailing_eq : forall t, is_prevailing (vi_type t) = true <-> prevailing t.
Proof. intros t. unfold is_prevailing, prevailing. destruct (vi_type t); cbn; split; intros H; try discriminate; try reflexivity; try tauto; repeat (destruct H as [H|H]; try discriminate H); try destruct H. Qed.
Lemma snoc_cons : forall (A : Type) (a : list A) g b, a ++ g :: b = (a ++ [g]) ++ b.
Proof. intros. rewrite <- app_assoc. reflexivity. Qed.
Lemma metar_values : forall pow i gs, Forall Reachable gs -> forall read wind w w', metar_inv pow i read wind w ->
  metar_loop pow i wind gs w = Ok w' -> exists wind', metar_inv pow i (read ++ before_trend 0 gs) wind' w'.
Proof.
  intros pow i gs R. induction R as [|g gs Rg _ IH]; intros read wind w w' I H.
  { cbn [metar_loop before_trend] in *. injection H as <-. rewrite app_nil_r. eauto. }
  assert (Keep : quiet surface_wind prevailing g -> unread g -> (forall k, g = GWind k -> ~ surface_wind k) -> forall w2, common_same w w2 -> observed_same w w2 ->
    metar_loop pow i wind gs w2 = Ok w' -> exists wind', metar_inv pow i ((read ++ [g]) ++ before_trend 0 gs) wind' w').
  { intros Q U N w2 S1 S2 L. eapply IH; [|exact L]. destruct I as (I1 & I2 & I3). split; [|split].
    - eapply common_keep; eassumption.
    - eapply observed_keep; eassumption.
    - apply wind_keep; assumption. }
  destruct g; cbn [metar_loop before_trend] in *; try rewrite snoc_cons.
  all: try (apply (Keep Logic.I Logic.I ltac:(intros; discriminate) w); [repeat split|repeat split|exact H]).
  - destruct (summary_keyword i g w) as [w1|] eqn:E; [|discriminate]. cbn [bind] in H. eapply IH; [|exact H]. destruct I as (I1 & I2 & I3).
    destruct (keyword_step i _ _ read g w w1 I1 E) as [K1 K2]. split; [exact K1|split].
    + eapply observed_keep; [exact I2|exact Logic.I|exact K2].
    + apply wind_keep; [exact I3|intros; discriminate].
  - injection H as <-. rewrite app_nil_r. eauto.
  - destruct (is_surface_wind (wi_type g)) eqn:T.
    + apply surface_eq in T. destruct (summary_wind i g w) as [w1|] eqn:E; [|discriminate]. cbn [bind] in H. eapply IH; [|exact H]. destruct I as (I1 & I2 & I3).
      destruct (wind_step i _ _ read g w w1 I1 Rg T E) as [K1 K2]. split; [exact K1|split].
      * eapply observed_keep; [exact I2|exact Logic.I|exact K2].
      * apply last_says. exists g. auto.
    + assert (N : ~ surface_wind g) by (intros N; apply surface_eq in N; congruence).
      apply (Keep N Logic.I ltac:(intros k X; injection X as <-; exact N) w); [repeat split|repeat split|exact H].
  - destruct (is_prevailing (vi_type g)) eqn:T.
    + apply prevailing_eq in T. destruct (assign_flt (cw_visibility w) (Distance_toUnit (VisibilityGroup_visibility g) (sum_visibilityUnit i))) as [v|] eqn:E; [|discriminate].
      cbn [bind] in H. eapply IH; [|exact H]. destruct I as (I1 & I2 & I3). split; [|split].
      * apply visibility_step; assumption.
      * eapply observed_keep; [exact I2|exact Logic.I|repeat split].
      * apply wind_keep; [exact I3|intros; discriminate].
    + cbn [bind] in H. assert (N : ~ prevailing g) by (intros N; apply prevailing_eq in N; congruence).
      apply (Keep N Logic.I ltac:(intros; discriminate) (cw_set_visibility w (cw_visibility w))); [repeat split|repeat split|exact H].
  - eapply IH; [|exact H]. destruct I as (I1 & I2 & I3). split; [apply cloud_step; exact I1|split].
    + eapply observed_keep; [exact I2|exact Logic.I|repeat split].
    + apply wind_keep; [exact I3|intros; discriminate].
  - destruct (WxType_beq _ _).
    + destruct (weather_loop _) as [l|]; [|discriminate]. cbn [bind] in H.
      apply (Keep Logic.I Logic.I ltac:(intros; discriminate) (cw_add_weather w l)); [repeat split|repeat split|exact H].
    + apply (Keep Logic.I Logic.I ltac:(intros; discriminate) w); [repeat split|repeat split|exact H].
  - destruct (summary_temperature pow i wind g w) as [w1|] eqn:E; [|discriminate]. cbn [bind] in H. eapply IH; [|exact H]. destruct I as (I1 & I2 & I3).
    destruct (temperature_step pow i read g wind w w1 I2 I3 Rg E) as [K1 K2]. split; [|split; [exact K1|]].
    + eapply common_keep; [exact I1|exact Logic.I|exact K2].
    + apply wind_keep; [exact I3|intros; discriminate].
  - destruct (summary_pressure i g w) as [w1|] eqn:E; [|discriminate]. cbn [bind] in H. eapply IH; [|exact H]. destruct I as (I1 & I2 & I3).
    destruct (pressure_step pow i read g w w1 I2 Rg E) as [K1 K2]. split; [|split; [exact K1|]].
    + eapply common_keep; [exact I1|exact Logic.I|exact K2].
    + apply wind_keep; [exact I3|intros; discriminate].
Qed.
Definition taf_inv i gs w : Prop := common_values i any_wind any_visibility gs w /\ observed_same cw_default w.
Lemma taf_values : forall i gs, Forall Reachable gs -> forall n read w w', (n <= 1)%nat -> taf_inv i read w ->
  taf_loop i n gs w = Ok w' -> taf_inv i (read ++ before_trend (1 - n) gs) w'.
Proof.
  intros i gs R. induction R as [|g gs Rg _ IH]; intros n read w w' Ln I H.
  { cbn [taf_loop before_trend] in *. injection H as <-. rewrite app_nil_r. exact I. }
  assert (Same : forall w1, observed_same w w1 -> observed_same cw_default w1).
  { intros w1 (A & B & C & D). destruct I as (_ & A' & B' & C' & D'). unfold observed_same. rewrite A, B, C, D. auto. }
  assert (Keep : quiet any_wind any_visibility g -> forall w2, common_same w w2 -> observed_same w w2 -> taf_inv i (read ++ [g]) w2).
  { intros Q w2 S1 S2. split; [|exact (Same _ S2)]. eapply common_keep; [apply I|exact Q|exact S1]. }
  destruct g; cbn [taf_loop before_trend] in *; try rewrite snoc_cons.
  all: try (eapply IH; [exact Ln| |exact H]; apply (Keep Logic.I w); repeat split).
  - destruct (summary_keyword i g w) as [w1|] eqn:E; [|discriminate]. cbn [bind] in H. eapply IH; [exact Ln| |exact H].
    destruct (keyword_step i _ _ read g w w1 (proj1 I) E) as [K1 K2]. split; [exact K1|exact (Same _ K2)].
  - destruct n as [|[|n]]; [|cbn in *; injection H as <-; rewrite app_nil_r; exact I|lia].
    cbn [Nat.ltb Nat.leb Nat.sub] in *. rewrite snoc_cons. apply (IH 1%nat (read ++ [GTrend g]) w w'); [lia| |exact H]. apply (Keep Logic.I w); repeat split.
  - destruct (summary_wind i g w) as [w1|] eqn:E; [|discriminate]. cbn [bind] in H. eapply IH; [exact Ln| |exact H].
    destruct (wind_step i _ _ read g w w1 (proj1 I) Rg Logic.I E) as [K1 K2]. split; [exact K1|exact (Same _ K2)].
  - destruct (assign_flt (cw_visibility w) (Distance_toUnit (VisibilityGroup_visibility g) (sum_visibilityUnit i))) as [v|] eqn:E; [|discriminate].
    cbn [bind] in H. eapply IH; [exact Ln| |exact H]. split; [apply visibility_step; [apply I|exact Rg|exact Logic.I|exact E]|apply Same; repeat split].
  - eapply IH; [exact Ln| |exact H]. split; [apply cloud_step; apply I|apply Same; repeat split].
  - destruct (weather_loop _) as [l|]; [|discriminate]. cbn [bind] in H. eapply IH; [exact Ln| |exact H].
    apply (Keep Logic.I (cw_add_weather w l)); repeat split.
Qed.
Lemma common_nil : forall i W V, common_values i W V [] cw_default.
Proof.
  intros i W V. split; try apply last_nil.
  - split; [discriminate|]. intros (k & [] & _).
  - split; [discriminate|]. intros (k & [] & _).
Qed.
Lemma observed_refl : observed_same cw_default cw_default.
Proof. repeat split. Qed.
Lemma observed_nil : forall pow i, observed_values pow i [] cw_default.
Proof. intros pow i. split; apply last_nil. Qed.

(** Time of the update *)
Lemma u32_small_int : forall z, (0 <= z < 2147483648)%Z -> u32_of_int z = Z.to_N z.
Proof. intros z L. unfold u32_of_int. rewrite Z.mod_small by lia. reflexivity. Qed.
Lemma i32_id : forall n, (n < 2147483648)%N -> i32_of_u32 n = Z.of_N n.
Proof. intros n H. unfold i32_of_u32. destruct (N.ltb_spec n 2147483648); lia. Qed.
Lemma dec_id : forall n, (0 < n < 2147483648)%N -> u32_dec n = (n - 1)%N.
Proof. intros n H. unfold u32_dec, u32, two32. replace (n + 4294967295)%N with ((n - 1) + 1 * 4294967296)%N by lia. rewrite N.mod_add by discriminate. apply N.mod_small. lia. Qed.
Lemma update_step : forall gs, Forall Reachable gs -> forall year month day read w, (1 <= year < 2147483648)%Z -> (1 <= month <= 12)%Z -> (1 <= day <= 31)%Z ->
  updated year month day read w -> updated year month day (read ++ gs) (reportReleaseTime w gs year month day).
Proof.
  intros gs R year month day read w Y M D. revert read w. induction R as [|g gs Rg _ IH]; intros read w U; cbn [reportReleaseTime]; [rewrite app_nil_r; exact U|].
  assert (Skip : (forall k, g <> GReportTime k) -> updated year month day (read ++ [g]) w).
  { intros N. apply last_silent; [exact U|]. intros b (k & X & _). exact (N k X). }
  destruct g; rewrite snoc_cons; try (apply IH; apply Skip; intros; discriminate).
  apply IH. apply last_says. exists g. split; [reflexivity|].
  cbn [cw_set_update cw_updateYear cw_updateMonth cw_updateDay cw_updateHour cw_updateMinute].
  rewrite !u32_small_int by lia. destruct (report_time g Rg) as (H1 & H2 & H3). cbv zeta.
  unfold MetafTime_dateBeforeRef. cbn [date_year date_month date_day].
  rewrite (i32_id (hourValue _)), (i32_id (minuteValue _)) by lia.
  destruct (dayValue (rt_t g)) as [d|]; [specialize (H3 d eq_refl)|].
  - destruct (N.ltb _ _); [|cbn [date_year date_month date_day]; rewrite !i32_id by lia; reflexivity].
    destruct (N.eqb_spec (Z.to_N month) 1); cbn [date_year date_month date_day]; rewrite dec_id by lia; rewrite !i32_id by lia; reflexivity.
  - cbn [date_year date_month date_day]. rewrite !i32_id by lia. reflexivity.
Qed.
Lemma update_common : forall i W V gs read w y m d, common_values i W V read w -> common_values i W V read (reportReleaseTime w gs y m d).
Proof.
  intros i W V gs read w y m d. revert w. induction gs as [|g gs IH]; intros w C; cbn [reportReleaseTime]; [exact C|].
  destruct g; auto. apply IH. destruct C. split; assumption.
Qed.
Lemma update_observed : forall pow i gs read w y m d, observed_values pow i read w -> observed_values pow i read (reportReleaseTime w gs y m d).
Proof.
  intros pow i gs read w y m d. revert w. induction gs as [|g gs IH]; intros w C; cbn [reportReleaseTime]; [exact C|].
  destruct g; auto. apply IH. destruct C. split; assumption.
Qed.
Lemma update_same : forall gs w y m d, let w' := reportReleaseTime w gs y m d in
  observed_same w w' /\ cw_airTemperatureLow w' = cw_airTemperatureLow w /\ cw_airTemperatureHigh w' = cw_airTemperatureHigh w.
Proof.
  intros gs. induction gs as [|g gs IH]; intros w y m d; cbn [reportReleaseTime]; [repeat split|].
  destruct g; try apply IH. exact (IH (cw_set_update w _ _ _ _ _) y m d).
Qed.

(** What the loops leave alone *)
Definition frame (w w' : CurrentWeather) : Prop :=
  cw_airTemperatureLow w' = cw_airTemperatureLow w /\ cw_airTemperatureHigh w' = cw_airTemperatureHigh w
  /\ (cw_updateYear w', cw_updateMonth w', cw_updateDay w', cw_updateHour w', cw_updateMinute w')
     = (cw_updateYear w, cw_updateMonth w, cw_updateDay w, cw_updateHour w, cw_updateMinute w).
Lemma frame_refl : forall w, frame w w.
Proof. intros w. repeat split. Qed.
Lemma frame_trans : forall a b c, frame a b -> frame b c -> frame a c.
Proof. intros a b c (A & B & C) (A' & B' & C'). unfold frame. rewrite A', B', C'. auto. Qed.
Ltac framed H := repeat match type of H with
  | bind ?e _ = Ok _ => destruct e; [cbn [bind] in H|discriminate H]
  | (if ?b then _ else _) = Ok _ => destruct b
  end; injection H as <-; repeat split.
Lemma keyword_frame : forall i k w w', summary_keyword i k w = Ok w' -> frame w w'.
Proof. intros i k w w' H. unfold summary_keyword in H. framed H. Qed.
Lemma wind_frame : forall i k w w', summary_wind i k w = Ok w' -> frame w w'.
Proof. intros i k w w' H. unfold summary_wind in H. framed H. Qed.
Lemma pressure_frame : forall i k w w', summary_pressure i k w = Ok w' -> frame w w'.
Proof. intros i k w w' H. unfold summary_pressure in H. framed H. Qed.
Lemma temperature_frame : forall pow i wind k w w', summary_temperature pow i wind k w = Ok w' -> frame w w'.
Proof. intros pow i wind k w w' H. unfold summary_temperature in H. framed H. Qed.
Lemma metar_frame : forall pow i gs wind w w', metar_loop pow i wind gs w = Ok w' -> frame w w'.
Proof.
  intros pow i gs. induction gs as [|g gs IH]; intros wind w w' H; cbn [metar_loop] in H; [injection H as <-; apply frame_refl|].
  destruct g; eauto.
  - destruct (summary_keyword i g w) as [w1|] eqn:E; [|discriminate]. eapply frame_trans; [exact (keyword_frame _ _ _ _ E)|eauto].
  - injection H as <-. apply frame_refl.
  - destruct (is_surface_wind _); [|eauto]. destruct (summary_wind i g w) as [w1|] eqn:E; [|discriminate]. eapply frame_trans; [exact (wind_frame _ _ _ _ E)|eauto].
  - match type of H with bind ?e _ = _ => destruct e as [v|]; [|discriminate] end. apply (frame_trans w (cw_set_visibility w v)); [repeat split|eauto].
  - apply (frame_trans w (summary_cloud g w)); [repeat split|eauto].
  - destruct (WxType_beq _ _); [|eauto]. destruct (weather_loop _) as [l|]; [|discriminate]. apply (frame_trans w (cw_add_weather w l)); [repeat split|eauto].
  - destruct (summary_temperature pow i wind g w) as [w1|] eqn:E; [|discriminate]. eapply frame_trans; [exact (temperature_frame _ _ _ _ _ _ E)|eauto].
  - destruct (summary_pressure i g w) as [w1|] eqn:E; [|discriminate]. eapply frame_trans; [exact (pressure_frame _ _ _ _ E)|eauto].
Qed.
Lemma taf_frame : forall i gs n w w', taf_loop i n gs w = Ok w' -> frame w w'.
Proof.
  intros i gs. induction gs as [|g gs IH]; intros n w w' H; cbn [taf_loop] in H; [injection H as <-; apply frame_refl|].
  destruct g; eauto.
  - destruct (summary_keyword i g w) as [w1|] eqn:E; [|discriminate]. eapply frame_trans; [exact (keyword_frame _ _ _ _ E)|eauto].
  - destruct (Nat.ltb _ _); [|eauto]. injection H as <-. apply frame_refl.
  - destruct (summary_wind i g w) as [w1|] eqn:E; [|discriminate]. eapply frame_trans; [exact (wind_frame _ _ _ _ E)|eauto].
  - match type of H with bind ?e _ = _ => destruct e as [v|]; [|discriminate] end. apply (frame_trans w (cw_set_visibility w v)); [repeat split|eauto].
  - apply (frame_trans w (summary_cloud g w)); [repeat split|eauto].
  - destruct (weather_loop _) as [l|]; [|discriminate]. apply (frame_trans w (cw_add_weather w l)); [repeat split|eauto].
Qed.

(** The forecast *)
Lemma minmax_said : forall gs read low high,
  last_said (forecast_said mm_minTemp) Temperature_default read low -> last_said (forecast_said mm_maxTemp) Temperature_default read high ->
  last_said (forecast_said mm_minTemp) Temperature_default (read ++ gs) (fst (minmax_loop gs low high))
  /\ last_said (forecast_said mm_maxTemp) Temperature_default (read ++ gs) (snd (minmax_loop gs low high)).
Proof.
  intros gs. induction gs as [|g gs IH]; intros read low high L H; cbn [minmax_loop]; [rewrite app_nil_r; auto|].
  rewrite snoc_cons. assert (N : (forall k, g <> GMinMaxTemperature k) -> forall f (b : Temperature), ~ forecast_said f read g b) by (intros N f b (k & X & _); exact (N k X)).
  destruct g; try (apply IH; apply last_silent; try assumption; apply N; intros; discriminate).
  apply IH; apply last_says; exists g; auto.
Qed.
Lemma forecast_values : forall i gs w w', Forall Reachable gs -> temperatureForecastFromTaf w gs i = Ok w' ->
  cw_airTemperatureLow w = valueNotSpecified -> cw_airTemperatureHigh w = valueNotSpecified ->
  forecast_says i mm_minTemp gs (cw_airTemperatureLow w') /\ forecast_says i mm_maxTemp gs (cw_airTemperatureHigh w')
  /\ exists low high, w' = cw_set_forecast w low high.
Proof.
  intros i gs w w' R H Lw Hw. unfold temperatureForecastFromTaf in H. cbv zeta in H.
  pose proof (minmax_loop_read gs R Temperature_default Temperature_default (or_introl eq_refl) (or_introl eq_refl)) as [L1 H1].
  destruct (minmax_said gs [] Temperature_default Temperature_default (last_nil _ _ _) (last_nil _ _ _)) as [S1 S2]. cbn [app] in S1, S2.
  destruct (minmax_loop gs Temperature_default Temperature_default) as [low high]. cbn [fst snd] in *.
  destruct (assign_temperature i low (cw_airTemperatureLow w) L1) as (z & E & D). destruct (assign_temperature i high (cw_airTemperatureHigh w) H1) as (z' & E' & D').
  rewrite E, E' in H. cbn [bind] in H. injection H as <-. cbn [cw_set_forecast cw_airTemperatureLow cw_airTemperatureHigh].
  split; [exists low|split; [exists high|eauto]]; (split; [assumption|]).
  - destruct D as [[-> D]|D]; auto.
  - destruct D' as [[-> D']|D']; auto.
Qed.

(** *** The reports *)
Lemma parse_usable : forall sgn report type gs, parseReport sgn report type = Ok gs ->
  usable sgn report type gs \/ unusable sgn report type /\ gs = [].
Proof.
  intros sgn report type gs H. unfold parseReport in H. destruct (parse_returns sgn report default_groupLimit) as (r & E). rewrite E in H. cbn [bind] in H.
  assert (U : forall gs', usable sgn report type gs' -> md_type (pr_metadata r) = type /\ md_error (pr_metadata r) = RE_NONE /\ gs' = map gi_group (pr_groups r) /\ gs' <> []).
  { intros gs' (r' & E' & U). rewrite E in E'. injection E' as <-. exact U. }
  destruct (ReportType_beq (md_type (pr_metadata r)) type) eqn:T; cbn [negb orb] in H.
  - apply internal_ReportType_dec_bl in T. destruct (ReportError_beq (md_error (pr_metadata r)) RE_NONE) eqn:X; cbn [negb] in H; injection H as <-.
    + apply internal_ReportError_dec_bl in X. destruct (map gi_group (pr_groups r)) as [|g l] eqn:M.
      * right. split; [|reflexivity]. intros gs' V. destruct (U gs' V) as (_ & _ & -> & N). exact (N eq_refl).
      * left. exists r. rewrite M. repeat split; auto. discriminate.
    + right. split; [|reflexivity]. intros gs' V. destruct (U gs' V) as (_ & V' & _). rewrite V' in X. discriminate.
  - injection H as <-. right. split; [|reflexivity]. intros gs' V. destruct (U gs' V) as (V' & _). rewrite V' in T.
    rewrite internal_ReportType_dec_lb in T by reflexivity. discriminate.
Qed.
Lemma usable_unique : forall sgn report type gs gs', usable sgn report type gs -> usable sgn report type gs' -> gs = gs'.
Proof. intros sgn report type gs gs' (r & E & _ & _ & -> & _) (r' & E' & _ & _ & -> & _). rewrite E in E'. injection E' as <-. reflexivity. Qed.
Lemma usable_nonempty : forall sgn report type gs, usable sgn report type gs -> gs <> [].
Proof. intros sgn report type gs (r & _ & _ & _ & _ & N). exact N. Qed.

Theorem summary_values : forall pow sgn metar taf year month day i w,
  getCurrentWeather pow sgn metar taf year month day i = Ok w ->
  (forall gs, usable sgn metar RT_METAR gs ->
     common_values i surface_wind prevailing (before_trend 0 gs) w
     /\ observed_values pow i (before_trend 0 gs) w
     /\ (proper_date year month day -> updated year month day gs w))
  /\ (forall gs, unusable sgn metar RT_METAR -> usable sgn taf RT_TAF gs \/ unusable sgn taf RT_TAF /\ gs = [] ->
     common_values i any_wind any_visibility (before_trend 1 gs) w
     /\ no_values_observed w
     /\ (proper_date year month day -> updated year month day gs w))
  /\ (forall gs, usable sgn taf RT_TAF gs \/ unusable sgn taf RT_TAF /\ gs = [] ->
     forecast_says i mm_minTemp gs (cw_airTemperatureLow w) /\ forecast_says i mm_maxTemp gs (cw_airTemperatureHigh w)).
Proof.
  intros pow sgn metar taf year month day i w H. unfold getCurrentWeather in H.
  destruct (parseReport_ok sgn metar RT_METAR) as (ms & Em & Rm). destruct (parseReport_ok sgn taf RT_TAF) as (ts & Et & Rt).
  rewrite Em, Et in H. cbn [bind] in H. apply parse_usable in Em, Et.
  assert (TS : forall gs, usable sgn taf RT_TAF gs \/ unusable sgn taf RT_TAF /\ gs = [] -> gs = ts).
  { intros gs [U|[U ->]]; destruct Et as [V|[V ->]]; try reflexivity; [exact (usable_unique _ _ _ _ _ U V)|destruct (V _ U)|destruct (U _ V)]. }
  assert (Fin : forall w0, temperatureForecastFromTaf w0 ts i = Ok w -> cw_airTemperatureLow w0 = valueNotSpecified -> cw_airTemperatureHigh w0 = valueNotSpecified ->
    (forall gs, usable sgn taf RT_TAF gs \/ unusable sgn taf RT_TAF /\ gs = [] ->
     forecast_says i mm_minTemp gs (cw_airTemperatureLow w) /\ forecast_says i mm_maxTemp gs (cw_airTemperatureHigh w)) /\ exists low high, w = cw_set_forecast w0 low high).
  { intros w0 F L0 H0. destruct (forecast_values i ts w0 w Rt F L0 H0) as (F1 & F2 & F3). split; [|exact F3].
    intros gs G. apply TS in G. subst gs. auto. }
  assert (Up : forall w1 gs, frame cw_default w1 -> Forall Reachable gs -> proper_date year month day -> updated year month day gs (reportReleaseTime w1 gs year month day)).
  { intros w1 gs (_ & _ & F) R (D1 & D2 & D3). apply (update_step gs R year month day [] w1 D1 D2 D3). unfold updated. rewrite F. apply last_nil. }
  destruct ms as [|m ms].
  - destruct (taf_loop i 0 ts cw_default) as [w1|] eqn:L; unfold currentWeatherFromTaf in H; rewrite L in H; [|discriminate]. cbn [bind] in H.
    pose proof (taf_frame _ _ _ _ _ L) as F. pose proof (taf_values i ts Rt 0 [] cw_default w1 ltac:(lia) (conj (common_nil _ _ _) observed_refl) L) as [C O].
    destruct (update_same ts w1 year month day) as (S1 & S2 & S3). destruct F as (F1 & F2 & F3).
    destruct (Fin _ H) as (G & low & high & ->); [rewrite S2, F1; reflexivity|rewrite S3, F2; reflexivity|].
    split; [|split; [|exact G]].
    + intros gs U. destruct Em as [V|[V _]]; [destruct (usable_nonempty _ _ _ _ V eq_refl)|destruct (V _ U)].
    + intros gs _ T. apply TS in T. subst gs. split; [|split].
      * apply (update_common _ _ _ ts _ _ year month day) in C. destruct C. split; assumption.
      * destruct S1 as (A1 & A2 & A3 & A4). destruct O as (O1 & O2 & O3 & O4). unfold no_values_observed.
        cbn [cw_set_forecast cw_airTemperature cw_perceivedTemperature cw_relativeHumidity cw_atmosphericPressure]. rewrite A1, A2, A3, A4, O1, O2, O3, O4. repeat split.
      * intros P. apply (Up w1 ts); [repeat split; assumption|exact Rt|exact P].
  - destruct (metar_loop pow i Speed_default (m :: ms) cw_default) as [w1|] eqn:L; unfold currentWeatherFromMetar in H; rewrite L in H; [|discriminate]. cbn [bind] in H.
    pose proof (metar_frame _ _ _ _ _ _ L) as F.
    destruct (metar_values pow i (m :: ms) Rm [] Speed_default cw_default w1 (conj (common_nil _ _ _) (conj (observed_nil _ _) (last_nil _ _ _))) L) as (wind & C & O & _).
    destruct (update_same (m :: ms) w1 year month day) as (S1 & S2 & S3). destruct F as (F1 & F2 & F3).
    destruct (Fin _ H) as (G & low & high & ->); [rewrite S2, F1; reflexivity|rewrite S3, F2; reflexivity|].
    split; [|split; [|exact G]].
    + intros gs U. destruct Em as [V|[_ V]]; [|discriminate]. rewrite (usable_unique _ _ _ _ _ U V) in *. split; [|split].
      * apply (update_common _ _ _ (m :: ms) _ _ year month day) in C. destruct C. split; assumption.
      * apply (update_observed _ _ (m :: ms) _ _ year month day) in O. destruct O. split; assumption.
      * intros P. apply (Up w1 (m :: ms)); [repeat split; assumption|exact Rm|exact P].
    + intros gs U. destruct Em as [V|[_ V]]; [destruct (U _ V)|discriminate].
Qed.
