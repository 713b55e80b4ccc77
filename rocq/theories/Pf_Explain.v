(** Every group of a report is explained, but for a variable runway visual range without a runway (C65). *)
From Coq Require Import Lia ZArith NArith List String.
Import ListNotations.
From Verif Require Import Prim Lib Regex Float Values Weather Groups1 Groups2 Groups3 Groups4 Parser Summary Format Explain SpecExplain.
From Verif Require Import SpecNumeral SpecReal SpecSumNumbers SpecDirection SpecWeather SpecWind SpecTrend SpecMinMax SpecAmounts SpecVisibility SpecTexts SpecNearby SpecReach.
From Verif Require Import Pf_Ok Pf_OkGroups3 Pf_Total Pf_Built Pf_Parsed Pf_Weather Pf_Nearby Pf_ExText Pf_ExDist Pf_ExValues Pf_Bounded Pf_SumRange.
From Verif Require Pf_Type Pf_WindWords Pf_Trend Pf_MinMax Pf_Miscs Pf_Visibility Pf_Vicinity Pf_Kinds.
Local Open Scope string_scope.

(** ** What the explanations need *)
Lemma trend_times : forall part ws g, Trend part ws (shown_by g) ->
  match tr_t g with
  | Tr_FROM => exists t, tr_from g = Some t
  | Tr_UNTIL => exists t, tr_till g = Some t
  | Tr_AT => exists t, tr_at g = Some t
  | Tr_TIME_SPAN => (exists t, tr_from g = Some t) /\ exists t, tr_till g = Some t
  | _ => True
  end.
Proof.
  intros part ws g H. destruct g as [t p f u a inc]; unfold shown_by in H; cbn in *.
  inversion H; subst; eauto;
    repeat match goal with X : change_word _ _ |- _ => red in X; cbn in X; repeat destruct X as [X|X]; try contradiction; inversion X; subst end; eauto.
Qed.
Lemma peak_time : forall part now ws g, Wind part now ws (told_by g) -> wi_type g = Wi_PEAK_WIND -> exists t, wi_evTime g = Some t.
Proof. intros part now ws g H T. destruct g; unfold told_by in H; cbn in *; subst. inversion H; subst; eauto. Qed.
Lemma forecast_times : forall part ws g, MinMax part ws (extremes_of g) -> mm_t g = Mm_FORECAST ->
  (Temperature_isReported (mm_minTemp g) = true -> exists t, mm_minTime g = Some t)
  /\ (Temperature_isReported (mm_maxTemp g) = true -> exists t, mm_maxTime g = Some t).
Proof.
  intros part ws g H T. destruct g; unfold extremes_of in H; cbn in *; subst. inversion H; subst; split; intros R; eauto; discriminate R.
Qed.
Definition sight_told (s : sight) : Prop :=
  match SpecVisibility.s_type s with
  | Vi_DIRECTIONAL | Vi_VARIABLE_DIRECTIONAL => s_direction s <> None
  | Vi_RUNWAY | Vi_VARIABLE_RUNWAY => s_runway s <> None
  | Vi_SECTOR | Vi_VARIABLE_SECTOR => exists v o w o', In (v, o) octant_names /\ In (w, o') octant_names /\ s_sector s = Some (towards o, towards o')
  | _ => True
  end.
Lemma place_told : forall w p d l h, Place_text w p -> sight_told (seen p d) /\ sight_told (varies p l h).
Proof. intros w p d l h H. inversion H; subst; split; try (cbn; discriminate); do 4 eexists; (split; [|split; [|reflexivity]]; eassumption). Qed.
Lemma sight_tells : forall part ws s, Visibility part ws s -> sight_told s.
Proof.
  intros part ws s H. inversion H; subst; try exact I; try (cbn; discriminate); try (eapply place_told; eassumption).
  1: match goal with X : Runway_range _ _ |- _ => inversion X; subst; exact I end.
  all: match goal with X : In (_, _) [_; _] |- _ => cbn in X; destruct X as [X|[X|[]]]; injection X as <- <-; exact I end.
Qed.
Lemma sector_listed : forall v o w o', In (v, o) octant_names -> In (w, o') octant_names ->
  exists l, vector (Some (towards o), Some (towards o')) = Ok l.
Proof.
  intros v o w o' H K.
  assert (C : forallb (fun a => forallb (fun b => match vector (Some (towards (snd a)), Some (towards (snd b))) with Ok _ => true | _ => false end) octant_names) octant_names = true)
    by (vm_compute; reflexivity).
  rewrite forallb_forall in C. specialize (C _ H). rewrite forallb_forall in C. specialize (C _ K). cbn [snd] in C.
  destruct (vector _); [eauto|discriminate C].
Qed.
Lemma sector_told : forall g, sight_told (seen_by g) -> In (vi_type g) [Vi_SECTOR; Vi_VARIABLE_SECTOR] -> exists l, VisibilityGroup_sectorDirections g = Ok l.
Proof.
  intros g H T. unfold sight_told, seen_by in H. cbn [SpecVisibility.s_type s_sector] in H.
  assert (X : exists v o w o', In (v, o) octant_names /\ In (w, o') octant_names /\ vi_secFrom g = Some (towards o) /\ vi_secTo g = Some (towards o')).
  { cbn in T. destruct T as [T|[T|[]]]; rewrite <- T in H; destruct H as (v & o & w & o' & A & B & C); exists v, o, w, o';
      (destruct (vi_secFrom g); [|discriminate C]); (destruct (vi_secTo g); [|discriminate C]); injection C as -> ->; auto. }
  destruct X as (v & o & w & o' & A & B & C & D). destruct (sector_listed _ _ _ _ A B) as (l & L). exists l.
  unfold VisibilityGroup_sectorDirections. rewrite C, D. exact L.
Qed.

(** ** Explanations of groups *)
Ltac vals := first [apply clean_time | apply clean_speed | apply clean_direction | apply clean_runway | apply clean_temperature | apply clean_pressure
  | apply clean_precipitation | apply clean_friction | apply clean_wave | apply clean_sector].
Ltac go := repeat (cl; try vals; try match goal with
  | |- clean (match ?o with Some _ => _ | None => _ end) => let E := fresh "E" in destruct o eqn:E
  | |- clean (if ?b then _ else _) => let E := fresh "E" in destruct b eqn:E
  end).

Lemma ex_keyword : forall g part raw, clean (visit_Keyword g part raw).
Proof. intros g part raw. unfold visit_Keyword. cl. destruct (kw_t g); go. Qed.
Lemma ex_location : forall g part raw, tame (LocationGroup_toString g) = true -> clean (visit_Location g part raw).
Proof. intros g part raw H. unfold visit_Location. cl. Qed.
Lemma ex_time : forall g part raw, clean (visit_ReportTime g part raw).
Proof. intros g part raw. unfold visit_ReportTime. go. Qed.
Lemma ex_trend : forall g part raw part' ws, Trend part' ws (shown_by g) -> clean (visit_Trend g part raw).
Proof.
  intros g part raw part' ws H. apply trend_times in H. unfold visit_Trend. cl.
  destruct (tr_t g); try (go; fail).
  - destruct H as (t & ->). cbn [deref bind]. go.
  - destruct H as (t & ->). cbn [deref bind]. go.
  - destruct H as (t & ->). cbn [deref bind]. go.
  - destruct H as [(t & ->) (t' & ->)]. cbn [deref bind]. go.
Qed.
Lemma ex_wind : forall g part raw now ws, Reachable (GWind g) -> Wind part now ws (told_by g) -> clean (visit_Wind g part raw).
Proof.
  intros g part raw now ws R H. pose proof (wind_fine _ R) as F. pose proof (peak_time _ _ _ _ H) as T.
  unfold visit_Wind. cl. destruct (wi_type g) eqn:E; try (go; exact (clean_distance _ F)).
  - go; destruct (wi_evTime g); try discriminate; cbn [deref bind]; go.
  - go; destruct (wi_evTime g); try discriminate; cbn [deref bind]; go.
  - destruct (T eq_refl) as (t & ->). cbn [opt_value bind]. go.
Qed.
Lemma fine_default : dist_fine Distance_default.
Proof. eauto with fine. Qed.
Lemma ex_visibility : forall g part raw ws, Reachable (GVisibility g) -> Visibility part ws (seen_by g) ->
  (vi_type g = Vi_VARIABLE_RVR -> vi_rw g <> None) -> clean (visit_Visibility g part raw).
Proof.
  intros g part raw ws R H N. pose proof (visibility_fine _ R) as F. apply sight_tells in H.
  assert (A : clean (explainDistance (VisibilityGroup_visibility g))) by (apply clean_distance, vis_seen, F).
  assert (B : clean (explainDistance (VisibilityGroup_minVisibility g))).
  { apply clean_distance. unfold VisibilityGroup_minVisibility. destruct (negb _); [exact fine_default|apply F]. }
  assert (C : clean (explainDistance (VisibilityGroup_maxVisibility g))) by (apply clean_distance, F).
  pose proof (sector_told _ H) as S. unfold sight_told, seen_by in H. cbn [SpecVisibility.s_type s_direction s_runway s_sector] in H.
  unfold visit_Visibility. cl. destruct (vi_type g) eqn:E; try (go; assumption);
    try (destruct S as (l & ->); [cbn; auto|]; cbn [bind]; go; assumption);
    try (destruct (vi_dir g); [|destruct (H eq_refl)]; cbn [opt_value bind]; go; assumption);
    try (destruct (vi_rw g); [|destruct (H eq_refl)]; cbn [opt_value bind]; go; assumption).
  - destruct (vi_rw g); cbn [has_value negb opt_value bind]; go. assumption.
  - destruct (vi_rw g); [|destruct (N eq_refl eq_refl)]. cbn [opt_value bind]. go; assumption.
Qed.
Lemma ex_visibility_throws : forall g part raw, vi_type g = Vi_VARIABLE_RVR -> vi_rw g = None -> visit_Visibility g part raw = Bad Throw.
Proof. intros g part raw T N. unfold visit_Visibility. rewrite T, N. destruct (VisibilityGroup_isValid g); reflexivity. Qed.
Lemma ex_cloud : forall g part raw, Reachable (GCloud g) -> clean (visit_Cloud g part raw).
Proof.
  intros g part raw R. destruct (cloud_fine_all _ R) as (A & B & C).
  assert (H : dist_fine heightNotReported) by (unfold heightNotReported; eauto with fine).
  assert (D1 : clean (explainDistance (CloudGroup_height g))) by (apply clean_distance; unfold CloudGroup_height; destruct (cl_tp g); assumption).
  assert (D2 : clean (explainDistance (CloudGroup_minHeight g))) by (apply clean_distance; unfold CloudGroup_minHeight; destruct (cl_tp g); assumption).
  assert (D3 : clean (explainDistance (CloudGroup_maxHeight g))) by (apply clean_distance; unfold CloudGroup_maxHeight; destruct (cl_tp g); assumption).
  assert (D4 : clean (explainDistance (CloudGroup_verticalVisibility g))) by (apply clean_distance; unfold CloudGroup_verticalVisibility; destruct (cl_tp g); assumption).
  unfold visit_Cloud. cl. destruct (cl_tp g) eqn:E; try (go; assumption).
  go. unfold CloudGroup_cloudType in *. rewrite E in *. match goal with X : Some _ = Some _ |- _ => injection X as <- end. exact (clean_cloudType _ C).
Qed.
Lemma ex_weather : forall g part raw, Reachable (GWeather g) -> clean (visit_Weather g part raw).
Proof.
  intros g part raw R. apply reachable_inv in R. cbn in R. destruct (ok_elim _ _ _ (ok_WeatherGroup_isValid g R)) as (b & E & _).
  destruct R as [F _].
  assert (X : clean (say (map (fun p => say [line ""; explainWeatherPhenomena p]) (WeatherGroup_weatherPhenomena g)))).
  { apply clean_map. eapply Forall_impl; [|exact F]. intros p W. cbn beta. go. exact (clean_phenomena _ W). }
  unfold visit_Weather. rewrite E. cbn [bind]. cl. destruct (wx_t g); go; exact X.
Qed.
Lemma ex_temperature : forall pow g part raw, pow_tame pow -> Reachable (GTemperature g) -> clean (visit_Temperature pow g part raw).
Proof.
  intros pow g part raw T R. destruct (temperature_read _ R) as [A B].
  unfold visit_Temperature. cl. destruct (tg_tp g); go.
  destruct (humidity_fits _ _ _ _ T A B E) as (k & K). exact (clean_int _ _ K).
Qed.
Lemma ex_pressure : forall g part raw, clean (visit_Pressure g part raw).
Proof. intros g part raw. unfold visit_Pressure. cl. destruct (pg_t g); go. Qed.
Lemma ex_runway : forall g part raw, clean (visit_RunwayState g part raw).
Proof. intros g part raw. unfold visit_RunwayState. cl; [vals|]. destruct (rs_tp g); go. Qed.
Lemma ex_sea : forall g part raw, clean (visit_SeaSurface g part raw).
Proof. intros g part raw. unfold visit_SeaSurface. go. Qed.
Lemma ex_minmax : forall g part raw ws, MinMax part ws (extremes_of g) -> clean (visit_MinMaxTemperature g part raw).
Proof.
  intros g part raw ws H. pose proof (forecast_times _ _ _ H) as T. unfold visit_MinMaxTemperature. cl. destruct (mm_t g); try (go; fail).
  destruct (T eq_refl) as [A B]. go.
  - destruct A as (t & ->); [assumption|]. cbn [opt_value bind]. go.
  - destruct B as (t & ->); [assumption|]. cbn [opt_value bind]. go.
Qed.
Lemma ex_precipitation : forall g part raw, clean (visit_Precipitation g part raw).
Proof. intros g part raw. unfold visit_Precipitation. cl. destruct (pc_type g); go. Qed.
Lemma ex_layer : forall g part raw, Reachable (GLayerForecast g) -> clean (visit_LayerForecast g part raw).
Proof. intros g part raw R. destruct (layer_fine _ R). unfold visit_LayerForecast. go; apply clean_distance; assumption. Qed.
Lemma ex_tendency : forall g part raw, clean (visit_PressureTendency g part raw).
Proof. intros g part raw. unfold visit_PressureTendency. cl. destruct (pt_type g); go. Qed.
Lemma ex_types : forall g part raw, Reachable (GCloudTypes g) -> clean (visit_CloudTypes g part raw).
Proof.
  intros g part raw R. unfold visit_CloudTypes. cl. apply clean_map. eapply Forall_impl; [|exact (types_fine _ R)].
  intros c F. cbn beta. cl. exact (clean_cloudType _ F).
Qed.
Lemma ex_lmh : forall g part raw, clean (visit_LowMidHighCloud g part raw).
Proof. intros g part raw. unfold visit_LowMidHighCloud. go. Qed.
Lemma ex_lightning : forall g part raw, Reachable (GLightning g) -> clean (visit_Lightning g part raw).
Proof.
  intros g part raw R. pose proof (clean_distance _ (lightning_fine _ R)). destruct (Pf_Vicinity.lightning_directions _ R) as (l & L & _).
  unfold visit_Lightning. rewrite L. cbn [bind]. go; try assumption. destruct (lt_freq g); go.
Qed.
Lemma ex_vicinity : forall g part raw, Reachable (GVicinity g) -> clean (visit_Vicinity g part raw).
Proof.
  intros g part raw R. pose proof (clean_distance _ (vicinity_fine _ R)). destruct (Pf_Vicinity.vicinity_directions _ R) as (l & L & _).
  unfold visit_Vicinity. rewrite L. cbn [bind]. go; try assumption. destruct (vc_t g); go.
Qed.
Lemma exact_int : forall x v, is_exactly x (parts v 1) -> (v <= 1000000)%N -> exists z, trunc_to_int x = Ok z.
Proof.
  intros x v (q & V & E) L. apply (trunc_bound x q V). rewrite E. unfold parts, QArith_base.Qle, Qabs.Qabs. cbn [QArith_base.Qnum QArith_base.Qden]. lia.
Qed.
Lemma get_alphabet : forall n c, String.get n alphabet = Some c -> (n <= 25)%nat.
Proof. intros n c H. do 26 (destruct n as [|n]; [lia|]). destruct n; discriminate H. Qed.
Lemma ex_misc : forall g part raw ws, Misc part ws (ms_type g) (ms_data g) -> clean (visit_Misc g part raw).
Proof.
  intros g part raw ws H. unfold visit_Misc. cl. inversion H; subst;
    try match goal with X : In (_, _) colours |- _ => cbn in X; repeat (destruct X as [X|X]; [injection X as <- <-|]); try contradiction end.
  all: try (go; fail).
  all: try match goal with X : In (_, _) [_; _] |- _ => cbn in X; destruct X as [X|[X|[]]]; injection X as <- <- end; cbn [deref bind has_value negb]; go.
  all: match goal with X : is_exactly _ _ |- _ => eapply exact_int in X; [destruct X as (z & Z); exact (clean_int _ _ Z)|] end.
  all: try match goal with X : numeral _ _ _ |- _ => apply Pf_Numeral.numeral_bound in X; cbn in X; lia end.
  match goal with X : String.get _ _ = _ |- _ => apply get_alphabet in X; lia end.
Qed.
