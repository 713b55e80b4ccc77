(** Proofs for C73: what kind of group it is, and which value of an enumeration, is said in words. *)
From Coq Require Import List String.
From Verif Require Import Prim Lib Float Values Weather Groups1 Groups2 Groups3 Groups4 Parser
  Format Explain SpecExplain SpecKinds Pf_ExTable Pf_ExShown Pf_ExOmits.
Import ListNotations.
Local Open Scope string_scope.

Definition has (w : string) (r : res string) : Prop := forall s, r = Ok s -> mentions w s = true.
Lemma has_here : forall w r l, has w r -> has w (say (r :: l)).
Proof. intros w r l H s E. apply say_ok in E. destruct E as (a & t & Ea & _ & ->). apply (mentions_app w "" a t). exact (H _ Ea). Qed.
Lemma has_later : forall w r l, has w (say l) -> has w (say (r :: l)).
Proof.
  intros w r l H s E. apply say_ok in E. destruct E as (a & t & _ & Et & ->). rewrite <- (app_empty_r t). apply mentions_app. exact (H _ Et).
Qed.
Lemma has_put : forall w a, mentions w a = true -> has w (put a).
Proof. intros w a H s E. apply ok_same in E. subst s. exact H. Qed.
Lemma has_line : forall w a, mentions w (String "010"%char a) = true -> has w (line a).
Proof. intros w a H s E. apply ok_same in E. subst s. exact H. Qed.
Lemma has_bad : forall w e, has w (Bad e).
Proof. intros w e s E. discriminate E. Qed.
Lemma all_have : forall ws r s, r = Ok s -> Forall (fun w => has w r) ws -> says_all s ws.
Proof. intros ws r s E H w Hw. exact (proj1 (Forall_forall _ _) H w Hw s E). Qed.

Ltac seek :=
  match goal with
  | |- has _ (say (_ :: _)) => first [apply has_here; seek | apply has_later; seek]
  | |- has _ (put _) => apply has_put; vm_compute; reflexivity
  | |- has _ (line _) => apply has_line; vm_compute; reflexivity
  | |- has _ (Bad _) => apply has_bad
  end.
Ltac all := repeat (apply Forall_cons; [seek|]); apply Forall_nil.

Theorem kind_told : forall pow g part raw s, castellanus g = false ->
  Visitor_visit (Ok "") (VisitorExplain pow) g part raw = Ok s -> says_all s (kind_words g).
Proof.
  intros pow g part raw s C V. apply (all_have _ _ _ V). clear V.
  destruct g as [g|g|g|g|g|g|g|g|g|g|g|g|g|g|g|g|g|g|g|g|g|g]; cbn [kind_words castellanus] in *.
  - change (Forall (fun w => has w (visit_Keyword g part raw)) (keyword_kind (kw_t g))). unfold visit_Keyword. destruct (kw_t g); all.
  - change (Forall (fun w => has w (visit_Location g part raw)) ["ICAO code of station"]). unfold visit_Location. all.
  - change (Forall (fun w => has w (visit_ReportTime g part raw)) ["report release"]). unfold visit_ReportTime. all.
  - change (Forall (fun w => has w (visit_Trend g part raw)) (trend_kind (tr_t g))). unfold visit_Trend. destruct (tr_t g); all.
  - change (Forall (fun w => has w (visit_Wind g part raw)) (wind_kind (wi_type g))). unfold visit_Wind. destruct (wi_type g); all.
  - change (Forall (fun w => has w (visit_Visibility g part raw)) (visibility_kind (vi_type g))). unfold visit_Visibility.
    destruct (vi_type g); try all. destruct (vi_rw g); cbn [has_value negb]; cbv match; all.
  - change (Forall (fun w => has w (visit_Cloud g part raw)) (cloud_kind (cl_tp g))). unfold visit_Cloud. destruct (cl_tp g); all.
  - change (Forall (fun w => has w (visit_Weather g part raw)) (weather_kind (wx_t g))). unfold visit_Weather. destruct (wx_t g); all.
  - change (Forall (fun w => has w (visit_Temperature pow g part raw)) (temperature_kind (tg_tp g))). unfold visit_Temperature. destruct (tg_tp g); all.
  - change (Forall (fun w => has w (visit_Pressure g part raw)) (pressure_kind (pg_t g))). unfold visit_Pressure. destruct (pg_t g); all.
  - change (Forall (fun w => has w (visit_RunwayState g part raw)) ("State of" :: state_kind (rs_tp g))). unfold visit_RunwayState. destruct (rs_tp g); all.
  - change (Forall (fun w => has w (visit_SeaSurface g part raw)) ["Sea surface temperature"]). unfold visit_SeaSurface. all.
  - change (Forall (fun w => has w (visit_MinMaxTemperature g part raw)) (minmax_kind (mm_t g))). unfold visit_MinMaxTemperature. destruct (mm_t g); all.
  - change (Forall (fun w => has w (visit_Precipitation g part raw)) (precipitation_kind (pc_type g))). unfold visit_Precipitation. destruct (pc_type g); all.
  - change (Forall (fun w => has w (visit_LayerForecast g part raw)) (layer_kind (lf_type g))). unfold visit_LayerForecast. destruct (lf_type g); all.
  - change (Forall (fun w => has w (visit_PressureTendency g part raw)) (kind_words (GPressureTendency g))). cbn [kind_words]. unfold visit_PressureTendency.
    destruct (pt_type g); all.
  - change (Forall (fun w => has w (visit_CloudTypes g part raw)) ["cloud layers"]). unfold visit_CloudTypes. all.
  - change (Forall (fun w => has w (visit_LowMidHighCloud g part raw)) ["Low cloud layer"; "Mid cloud layer"; "High cloud layer"]). unfold visit_LowMidHighCloud. all.
  - change (Forall (fun w => has w (visit_Lightning g part raw)) ["Lightning strikes observed"]). unfold visit_Lightning. all.
  - change (Forall (fun w => has w (visit_Vicinity g part raw)) (vicinity_kind (vc_t g))). unfold visit_Vicinity. destruct (vc_t g); try discriminate C; all.
  - change (Forall (fun w => has w (visit_Misc g part raw)) (misc_kind (ms_type g))). unfold visit_Misc. destruct (ms_type g); try all.
    destruct (ms_data g) as [x|]; cbn [deref bind]; [|all]. destruct (negb (flt_is_zero x)); all.
  - change (Forall (fun w => has w (visit_Unknown g part raw)) ["Not recognised"]). unfold visit_Unknown. all.
Qed.

Ltac table := let x := fresh "x" in intros x w H; destruct x; cbn in H; repeat (destruct H as [H|H]; [subst w; vm_compute; reflexivity|]); destruct H.
Lemma point_told : forall x, says_all (cardinalDirectionToString x) (point_words x). Proof. table. Qed.
Lemma braking_told : forall x, says_all (brakingActionToString x) (braking_words x). Proof. table. Qed.
Lemma sea_told : forall x, says_all (stateOfSeaSurfaceToString x) (sea_words x). Proof. table. Qed.
Lemma amount_told : forall x, says_all (cloudAmountToString x) (amount_words x). Proof. table. Qed.
Lemma convective_told : forall x, says_all (convectiveTypeToString x) (convective_words x). Proof. table. Qed.
Lemma trend_told : forall x, says_all (visTrendToString x) (trend_words x). Proof. table. Qed.
Lemma probability_told : forall x, says_all (probabilityToString x) (probability_words x). Proof. table. Qed.
Lemma deposit_told : forall x, says_all (runwayStateDepositsToString x) (deposit_words x). Proof. table. Qed.
Lemma extent_told : forall x, says_all (runwayStateExtentToString x) (extent_words x). Proof. table. Qed.
Lemma layer_told : forall x, says_all (layerForecastGroupTypeToString x) (layer_kind x). Proof. table. Qed.
Lemma tendency_told : forall x, says_all (pressureTendencyTypeToString x) (tendency_words x). Proof. table. Qed.
Lemma change_told : forall x, says_all (pressureTendencyTrendToString x) (change_words x). Proof. table. Qed.
Lemma low_told : forall x, says_all (cloudLowLayerToString x) (low_words x). Proof. table. Qed.
Lemma mid_told : forall x, says_all (cloudMidLayerToString x) (mid_words x). Proof. table. Qed.
Lemma high_told : forall x, says_all (cloudHighLayerToString x) (high_words x). Proof. table. Qed.
Lemma cloud_told : forall x, x <> Ct_NOT_REPORTED -> says_all (cloudTypeToString x) (cloud_words x).
Proof. intros x N w H. destruct x; try congruence; cbn in H; (repeat (destruct H as [H|H]; [subst w; vm_compute; reflexivity|]); destruct H). Qed.
Lemma not_reported_told : cloudTypeToString Ct_NOT_REPORTED = "cumulonimbus".
Proof. reflexivity. Qed.
Lemma qualifier_told : forall x s, weatherPhenomenaQualifierToString x = Ok s -> says_all s (qualifier_words x).
Proof. intros x s E w H. destruct x; cbn in H, E; try discriminate E; apply ok_same in E; subst s; (repeat (destruct H as [H|H]; [subst w; vm_compute; reflexivity|]); destruct H). Qed.
Lemma descriptor_told : forall x s, weatherPhenomenaDescriptorToString x = Ok s -> says_all s (descriptor_words x).
Proof. intros x s E w H. destruct x; cbn in H, E; try discriminate E; apply ok_same in E; subst s; (repeat (destruct H as [H|H]; [subst w; vm_compute; reflexivity|]); destruct H). Qed.
Lemma weather_told : forall x s, weatherPhenomenaWeatherToString x = Ok s -> says_all s (weather_words x).
Proof. intros x s E w H. destruct x; cbn in H, E; try discriminate E; apply ok_same in E; subst s; (repeat (destruct H as [H|H]; [subst w; vm_compute; reflexivity|]); destruct H). Qed.

(** ** Weather phenomena *)
Lemma weathers_eq : forall a b, weathers_beq a b = true -> a = b.
Proof.
  induction a as [|x a IH]; intros [|y b] H; try discriminate H; [reflexivity|]. cbn [weathers_beq] in H. apply andb_prop in H. destruct H as (H & K).
  apply internal_WpWeather_dec_bl in H. subst y. rewrite (IH _ K). reflexivity.
Qed.
Definition usual_words (q : WpQualifier) (d : WpDescriptor) (ws : list WpWeather) : list string :=
  (qualifier_words q ++ match q with Q_VICINITY => ["vicinity"] | _ => [] end
      ++ descriptor_words d ++ match d with D_SHOWERS => ["showers"] | D_THUNDERSTORM => ["thunderstorm"] | _ => [] end
      ++ flat_map weather_words ws)%list.
Lemma weathers_told : forall ws before w, In w (flat_map weather_words ws) -> has w (explainWeathers before ws).
Proof.
  induction ws as [|x ws IH]; intros before w H; [destruct H|]. cbn [flat_map] in H. cbn [explainWeathers].
  destruct (weatherPhenomenaWeatherToString x) as [t|] eqn:E; cbn [bind]; [|apply has_bad]. cbv zeta.
  apply in_app_or in H. destruct H as [H|H].
  - apply has_here. apply has_put. pose proof (weather_told _ _ E) as T.
    destruct (WpWeather_beq before W_RAIN && WpWeather_beq x W_SNOW) eqn:A.
    + apply andb_prop in A. destruct A as (_ & A). apply internal_WpWeather_dec_bl in A. subst x.
      replace (WpWeather_beq W_SNOW W_RAIN) with false by reflexivity. rewrite Bool.andb_false_r. destruct H as [<-|[]]. reflexivity.
    + destruct (WpWeather_beq before W_SNOW && WpWeather_beq x W_RAIN) eqn:B; [|exact (T _ H)].
      apply andb_prop in B. destruct B as (_ & B). apply internal_WpWeather_dec_bl in B. subst x. destruct H as [<-|[]]. reflexivity.
  - do 2 apply has_later. apply has_here. exact (IH x _ H).
Qed.
Lemma spaced : forall r w, (forall t, r = Ok t -> mentions w t = true) -> w <> "" -> has w (with_space r).
Proof.
  intros r w H N. unfold with_space. destruct r as [t|]; cbn [bind]; [|apply has_bad]. specialize (H t eq_refl).
  destruct t as [|c t]; [destruct w; [congruence|discriminate H]|]. cbn [sempty negb when]. apply has_here, has_put. exact H.
Qed.
Lemma not_empty : forall q d x, In x (qualifier_words q) \/ In x (descriptor_words d) -> x <> "".
Proof. intros q d x [H|H]; [destruct q|destruct d]; cbn in H; repeat (destruct H as [H|H]; [subst x; discriminate|]); destruct H. Qed.
Lemma usual_told : forall p, specialWeatherPhenomenaToString p = "" ->
  Forall (fun w => has w (explainWeatherPhenomena p)) (usual_words (Wp_qualifier p) (Wp_descriptor p) (Wp_weather p)).
Proof.
  intros p S. unfold explainWeatherPhenomena. rewrite S. cbn [sempty negb]. cbv match. unfold usual_words.
  repeat (apply Forall_app; split); apply Forall_forall; intros w H.
  - apply has_here. apply spaced; [|exact (not_empty _ D_NONE _ (or_introl H))]. intros t E. exact (qualifier_told _ _ E _ H).
  - do 5 apply has_later. apply has_here. destruct (Wp_qualifier p); try (destruct H; fail). destruct H as [<-|[]]. cbn [when WpQualifier_beq]. seek.
  - apply has_later, has_here. apply spaced; [|exact (not_empty Q_NONE _ _ (or_intror H))]. intros t E. exact (descriptor_told _ _ E _ H).
  - destruct (Wp_descriptor p); try (destruct H; fail); destruct H as [<-|[]].
    + do 3 apply has_later. apply has_here. cbn [when WpDescriptor_beq]. seek.
    + do 4 apply has_later. apply has_here. cbn [when WpDescriptor_beq]. apply has_later. seek.
  - do 2 apply has_later. apply has_here. exact (weathers_told _ _ _ H).
Qed.
Lemma usual_or : forall q d ws, phenomenon_words q d ws = usual_words q d ws
  \/ (q, d, ws) = (Q_HEAVY, D_NONE, [W_FUNNEL_CLOUD]) \/ (q, d, ws) = (Q_VICINITY, D_NONE, [W_FUNNEL_CLOUD]) \/ (q, d, ws) = (Q_VICINITY, D_SHOWERS, []).
Proof.
  intros q d ws. destruct q; try (left; reflexivity); destruct d; try (left; reflexivity); destruct ws as [|w [|v ws]]; try (left; reflexivity); try tauto;
    destruct w; first [left; reflexivity | tauto].
Qed.
Lemma special_told : forall p l, Forall (fun row => says_all (snd row) (phenomenon_words (fst (fst (fst row))) (snd (fst (fst row))) (snd (fst row)))) l ->
  special_loop p l <> "" -> says_all (special_loop p l) (phenomenon_words (Wp_qualifier p) (Wp_descriptor p) (Wp_weather p)).
Proof.
  intros p l H. induction H as [|[[[q d] ws] t] l R H IH]; cbn [special_loop]; intros N; [congruence|].
  destruct (_ && _ && _) eqn:B; [|exact (IH N)]. apply andb_prop in B. destruct B as (B & B3). apply andb_prop in B. destruct B as (B1 & B2).
  apply internal_WpQualifier_dec_bl in B1. apply internal_WpDescriptor_dec_bl in B2. apply weathers_eq in B3. rewrite B1, B2, B3. exact R.
Qed.
Lemma specials_told : Forall (fun row => says_all (snd row) (phenomenon_words (fst (fst (fst row))) (snd (fst (fst row))) (snd (fst row)))) specialWeatherPhenomena.
Proof.
  repeat (apply Forall_cons; [intros w H; cbn in H; repeat (destruct H as [H|H]; [subst w; vm_compute; reflexivity|]); destruct H|]). apply Forall_nil.
Qed.
Theorem phenomenon_told : forall p s, explainWeatherPhenomena p = Ok s -> says_all s (phenomenon_words (Wp_qualifier p) (Wp_descriptor p) (Wp_weather p)).
Proof.
  intros p s E. destruct (string_dec (specialWeatherPhenomenaToString p) "") as [S|S].
  - apply (all_have _ _ _ E). pose proof (usual_told p S) as U.
    destruct (usual_or (Wp_qualifier p) (Wp_descriptor p) (Wp_weather p)) as [K|K]; [rewrite K; exact U|].
    exfalso. unfold specialWeatherPhenomenaToString in S.
    repeat destruct K as [K|K]; injection K; intros K1 K2 K3; cbn [special_loop specialWeatherPhenomena] in S; rewrite K1, K2, K3 in S; discriminate S.
  - unfold explainWeatherPhenomena in E. destruct (sempty (specialWeatherPhenomenaToString p)) eqn:T.
    { destruct (specialWeatherPhenomenaToString p); [congruence|discriminate T]. }
    cbn [negb] in E. cbv match in E. apply ok_same in E. subst s. exact (special_told _ _ specials_told S).
Qed.

(** ** Altocumulus castellanus *)
Lemma castellanus_untold : exists r g part, parse true "METAR EGLL 170950Z RMK ACC NW" default_groupLimit = Ok r /\ In (mkGroupInfo g part "ACC NW") (pr_groups r)
  /\ forall pow s, Visitor_visit (Ok "") (VisitorExplain pow) g part "ACC NW" = Ok s -> ~ says_all s (kind_words g).
Proof.
  assert (E : exists v, nth_group 4 "METAR EGLL 170950Z RMK ACC NW" = Some (mkGroupInfo (GVicinity v) RP_RMK "ACC NW") /\ vc_t v = Vc_ALTOCUMULUS_CASTELLANUS
    /\ forall pow s, Visitor_visit (Ok "") (VisitorExplain pow) (GVicinity v) RP_RMK "ACC NW" = Ok s -> mentions "castellanus" s = false).
  { eexists. split; [vm_compute; reflexivity|]. split; [vm_compute; reflexivity|]. intros pow s V. vm_compute in V. apply ok_same in V. subst s. vm_compute. reflexivity. }
  destruct E as (v & N & T & V). unfold nth_group, result_of in N. destruct (parse true _ default_groupLimit) as [r|] eqn:P; [|discriminate N].
  exists r, (GVicinity v), RP_RMK. split; [reflexivity|]. split; [exact (nth_error_In _ _ N)|]. intros pow s W H.
  specialize (V _ _ W). cbn [kind_words] in H. rewrite T in H. rewrite (H "castellanus" (or_intror (or_introl eq_refl))) in V. discriminate V.
Qed.
