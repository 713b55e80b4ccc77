(** The weather symbols and the sky of the summary. *)
From Coq Require Import Lia ZArith NArith List Bool String.
From Verif Require Import Prim Lib Values Weather Groups1 Groups2 Groups3 Groups4 Parser Summary.
From Verif Require Import SpecWeather SpecPhenomena SpecReach SpecSummary.
From Verif Require Import Pf_Ok Pf_Weather Pf_OkGroups3 Pf_Kinds Pf_Total Pf_Events Pf_WeatherWords Pf_Summary Pf_SumValues.
Import ListNotations.
Local Open Scope list_scope.

(** *** One symbol *)
Definition proper_qs := [Q_NONE; Q_RECENT; Q_LIGHT; Q_MODERATE; Q_HEAVY].
Definition proper_ds := [D_NONE; D_SHALLOW; D_PARTIAL; D_PATCHES; D_LOW_DRIFTING; D_BLOWING; D_SHOWERS; D_THUNDERSTORM; D_FREEZING].
Definition proper_ws := [W_NOT_REPORTED; W_DRIZZLE; W_RAIN; W_SNOW; W_SNOW_GRAINS; W_ICE_CRYSTALS; W_ICE_PELLETS; W_HAIL;
  W_SMALL_HAIL; W_UNDETERMINED; W_MIST; W_FOG; W_SMOKE; W_VOLCANIC_ASH; W_DUST; W_SAND; W_HAZE; W_SPRAY; W_DUST_WHIRLS;
  W_SQUALLS; W_FUNNEL_CLOUD; W_SANDSTORM; W_DUSTSTORM].
Definition true_check q d w s : bool :=
  match sm_kind (meaning s) with
  | [x] => WpWeather_beq x w && negb (sm_near (meaning s))
      && (WpQualifier_beq (sm_strength (meaning s)) Q_NONE || WpQualifier_beq (sm_strength (meaning s)) q
          || WpQualifier_beq (sm_strength (meaning s)) Q_MODERATE && negb (WpQualifier_beq q Q_LIGHT) && negb (WpQualifier_beq q Q_HEAVY))
      && (WpDescriptor_beq (sm_manner (meaning s)) D_NONE || WpDescriptor_beq (sm_manner (meaning s)) d)
  | _ => false
  end.
Lemma q_bl : forall a b, WpQualifier_beq a b = true <-> a = b.
Proof. intros a b. split; [apply internal_WpQualifier_dec_bl|apply internal_WpQualifier_dec_lb]. Qed.
Lemma d_bl : forall a b, WpDescriptor_beq a b = true <-> a = b.
Proof. intros a b. split; [apply internal_WpDescriptor_dec_bl|apply internal_WpDescriptor_dec_lb]. Qed.
Lemma w_bl : forall a b, WpWeather_beq a b = true <-> a = b.
Proof. intros a b. split; [apply internal_WpWeather_dec_bl|apply internal_WpWeather_dec_lb]. Qed.
Lemma q_nl : forall a b, WpQualifier_beq a b = false <-> a <> b.
Proof. intros a b. rewrite <- q_bl. destruct (WpQualifier_beq a b); split; congruence. Qed.
Lemma true_checked : forall q d w s, true_check q d w s = true <-> true_symbol q d w s.
Proof.
  intros q d w s. unfold true_check, true_symbol. destruct (sm_kind (meaning s)) as [|x [|y l]]; [split; [discriminate|intros (_ & E & _); discriminate]| |split; [discriminate|intros (_ & E & _); discriminate]].
  rewrite !andb_true_iff, !orb_true_iff, !andb_true_iff, !negb_true_iff, !q_bl, !d_bl, w_bl, !q_nl. split.
  - intros (((A & B) & C) & D). subst x. repeat split; try assumption. tauto.
  - intros (A & B & C & D). injection B as ->. repeat split; try assumption. tauto.
Qed.
Definition best_check q d w s : bool :=
  true_check q d w s && forallb (fun s' => negb (true_check q d w s') || SumWeather_beq s' s || Nat.ltb (details s') (details s)) all_SumWeather.
Lemma all_in : forall s, In s all_SumWeather.
Proof. intros []; vm_compute; tauto. Qed.
Lemma best_checked : forall q d w s, best_check q d w s = true -> best_symbol q d w s.
Proof.
  intros q d w s H. apply andb_prop in H. destruct H as [A B]. split; [apply true_checked; exact A|]. intros s' T. apply true_checked in T.
  rewrite forallb_forall in B. specialize (B s' (all_in s')). rewrite T in B. cbn [negb orb] in B. apply orb_prop in B. destruct B as [B|B].
  - left. apply internal_SumWeather_dec_bl. exact B.
  - right. apply Nat.ltb_lt. exact B.
Qed.
Definition symbol_check (x : WpQualifier * WpDescriptor * WpWeather) : bool :=
  let '(q, d, w) := x in
  WpWeather_beq w W_ICE_PELLETS && negb (WpDescriptor_beq d D_SHOWERS)
  || match phenomenaFromWeatherGroup q d w with Ok s => best_check q d w s | _ => false end.
Lemma symbols_checked : forallb symbol_check (list_prod (list_prod proper_qs proper_ds) proper_ws) = true.
Proof. vm_compute. reflexivity. Qed.
Lemma in_qs : forall q, proper_q q -> q <> Q_VICINITY -> In q proper_qs.
Proof. intros [] P N; cbn in *; try contradiction; tauto. Qed.
Lemma in_ds : forall d, proper_d d -> In d proper_ds.
Proof. intros [] P; cbn in *; try contradiction; tauto. Qed.
Lemma in_ws : forall w, proper_w w -> In w proper_ws.
Proof. intros [] P; cbn in *; try contradiction; tauto. Qed.
Lemma symbol_best : forall q d w s, proper_q q -> proper_d d -> proper_w w -> q <> Q_VICINITY -> (w = W_ICE_PELLETS -> d = D_SHOWERS) ->
  phenomenaFromWeatherGroup q d w = Ok s -> best_symbol q d w s.
Proof.
  intros q d w s Pq Pd Pw N X E. pose proof symbols_checked as C. rewrite forallb_forall in C. specialize (C (q, d, w)).
  unfold symbol_check in C. rewrite E in C. apply best_checked. rewrite orb_true_iff in C. destruct C as [C|C]; [|exfalso|exact C].
  - apply in_prod; [apply in_prod|]; [apply in_qs|apply in_ds|apply in_ws]; assumption.
  - apply andb_prop in C. destruct C as [C1 C2]. apply w_bl in C1. rewrite negb_true_iff in C2. rewrite (X C1) in C2. discriminate.
Qed.
Lemma loop_best : forall q d ws l, proper_q q -> proper_d d -> Forall proper_w ws -> q <> Q_VICINITY -> (In W_ICE_PELLETS ws -> d = D_SHOWERS) ->
  phenomena_loop q d ws = Ok l -> Forall2 (best_symbol q d) ws l.
Proof.
  intros q d ws. induction ws as [|w ws IH]; intros l Pq Pd Pw N X E; cbn [phenomena_loop] in E; [injection E as <-; constructor|].
  inversion Pw; subst. destruct (phenomenaFromWeatherGroup q d w) as [s|] eqn:Es; [|discriminate]. cbn [bind] in E.
  destruct (phenomena_loop q d ws) as [r|] eqn:Er; [|discriminate]. cbn [bind] in E. injection E as <-. constructor.
  - apply symbol_best; try assumption. intros ->. apply X. left. reflexivity.
  - apply IH; auto. intros I. apply X. right. exact I.
Qed.

(** *** Weather in the vicinity *)
Definition near_ok (p : WeatherPhenomena) : Prop := Wp_qualifier p = Q_VICINITY -> In (Wp_descriptor p, Wp_weather p) in_vicinity.
Lemma recognised_near : forall b q d ws, recognised b q d ws -> q = Q_VICINITY -> In (d, ws) in_vicinity.
Proof.
  intros b q d ws H E. inversion H; subst; try discriminate; try assumption.
  destruct b; cbn in H0; intuition discriminate.
Qed.
Lemma shows_near : forall b p q d ws e, recognised b q d ws -> shows p q d ws e -> near_ok p.
Proof. intros b p q d ws e R (A & B & C & _) E. rewrite B, C. rewrite A in E. exact (recognised_near _ _ _ _ R E). Qed.
Lemma body_near : forall part s p, body_weather part s p -> near_ok p.
Proof.
  intros part s p [(_ & _ & (A & _) & _)|[(_ & _ & (A & _) & _)|(q & d & ws & _ & R & _ & S & _)]]; try (intros E; congruence). eapply shows_near; eassumption.
Qed.
Lemma events_plain : forall t prev ss ps, events t prev ss ps -> Wp_qualifier prev = Q_NONE -> Forall (fun p => Wp_qualifier p = Q_NONE) ps.
Proof.
  intros t prev ss ps H. induction H as [|prev s p ss ps Ht He IH]; intros E; [constructor|].
  assert (Q : Wp_qualifier p = Q_NONE).
  { destruct Ht as (ph & ev & h & m & q & d & ws & hour & minute & _ & _ & _ & _ & P & (S & _) & _). rewrite S.
    destruct P as [(_ & (e & S' & _) & _)|(R & _)]; [congruence|].
    inversion R; subst; try reflexivity; try discriminate. cbn in H. destruct H as [<-|[]]. reflexivity. }
  constructor; [exact Q|exact (IH Q)].
Qed.
Lemma Forall_firstn : forall (A : Type) (P : A -> Prop) n l, Forall P l -> Forall P (firstn n l).
Proof. intros A P n. induction n as [|n IH]; intros l H; [constructor|]. destruct H; cbn; constructor; auto. Qed.
Lemma words_near : forall part ws g, weather_words part ws g -> Forall near_ok (wx_w g).
Proof.
  intros part ws g H. unfold weather_words in H. unfold WeatherGroup_weatherPhenomena in H.
  assert (B : Forall2 (body_weather part) ws (wx_w g) -> Forall near_ok (wx_w g)).
  { clear H. intros H. induction H; constructor; [eapply body_near; eassumption|assumption]. }
  destruct (wx_t g).
  - apply B, H.
  - apply B, H.
  - destruct H as (_ & t & ss & ps & _ & _ & E & ->). apply Forall_firstn. apply events_plain in E; [|reflexivity].
    eapply Forall_impl; [|exact E]. intros p Q V. congruence.
  - destruct H as (_ & _ & ->). constructor.
  - destruct H as (_ & _ & ->). constructor.
  - destruct H as (_ & _ & -> & _). constructor.
  - destruct H as (_ & _ & ->). constructor.
  - destruct H as (_ & _ & -> & _). constructor.
Qed.
Lemma reach_near : forall k, Reachable (GWeather k) -> Forall near_ok (wx_w k).
Proof.
  apply reach_Weather.
  - intros s part md k H. apply weather_first in H. exact (words_near _ _ _ (proj1 H)).
  - intros k s part md k' a _ IH H. unfold WeatherGroup_append in H. destruct (wx_inc k).
    + destruct (_ && _); [injection H as <- _; exact IH|]. apply bind_ok in H. destruct H as ([p|] & Hp & H); [|injection H as <- _; exact IH].
      cbv zeta in H. destruct (_ && _); [injection H as <- _; exact IH|]. destruct (_ && _); [injection H as <- _; exact IH|].
      apply bind_ok in H. destruct H as ([k2|] & Ha & H); injection H as <- _; [|exact IH].
      unfold Weather_addWeatherPhenomena in Ha. destruct (Nat.leb _ _); [discriminate|]. apply bind_ok in Ha. destruct Ha as (l & Hl & Ha).
      injection Ha as <-. unfold array_push in Hl. destruct (Nat.ltb _ _); [|discriminate]. injection Hl as <-. cbn [wx_w].
      apply Forall_app. split; [exact IH|]. constructor; [|constructor]. apply body_word in Hp. eapply body_near; exact Hp.
    + destruct (negb _); injection H as <- _; exact IH.
    + destruct (negb _); injection H as <- _; exact IH.
    + destruct (negb _); injection H as <- _; exact IH.
Qed.

(** *** The symbols of a phenomenon and of several *)
Definition near_check (x : WpDescriptor * list WpWeather) : bool :=
  let '(d, ws) := x in
  match ws with [W_FUNNEL_CLOUD] => true | _ =>
    let m := meaning (phenomenaInVicinity d (match ws with [] => W_NOT_REPORTED | w :: _ => w end)) in
    sm_near m && WpQualifier_beq (sm_strength m) Q_NONE && WpDescriptor_beq (sm_manner m) d
    && if list_eq_dec WpWeather_eq_dec (sm_kind m) ws then true else false
  end.
Lemma near_checked : forallb near_check in_vicinity = true.
Proof. vm_compute. reflexivity. Qed.
Lemma near_symbol : forall d ws, In (d, ws) in_vicinity -> ws <> [W_FUNNEL_CLOUD] ->
  meaning (phenomenaInVicinity d (match ws with [] => W_NOT_REPORTED | w :: _ => w end)) = mkMeaning true Q_NONE d ws.
Proof.
  intros d ws I N. pose proof near_checked as C. rewrite forallb_forall in C. specialize (C _ I). unfold near_check in C.
  assert (C' : let m := meaning (phenomenaInVicinity d (match ws with [] => W_NOT_REPORTED | w :: _ => w end)) in
    sm_near m && WpQualifier_beq (sm_strength m) Q_NONE && WpDescriptor_beq (sm_manner m) d
    && (if list_eq_dec WpWeather_eq_dec (sm_kind m) ws then true else false) = true).
  { destruct ws as [|w [|x l]]; try exact C; destruct w; try exact C. contradiction. }
  cbv zeta in C'. destruct (meaning _) as [n q d' k]. cbn [sm_near sm_strength sm_manner sm_kind] in C'.
  apply andb_prop in C'. destruct C' as [C1 C2]. apply andb_prop in C1. destruct C1 as [C1 C3]. apply andb_prop in C1. destruct C1 as [C1 C4].
  apply q_bl in C4. apply d_bl in C3. destruct (list_eq_dec _ k ws); [|discriminate]. subst. reflexivity.
Qed.
Lemma same_ok : forall (A : Type) (a b : A), Ok a = Ok b -> a = b.
Proof. intros A a b H. injection H as <-. reflexivity. Qed.
Lemma phenomenon_symbols : forall p l, wp_wf p -> near_ok p -> ~ misshown p ->
  weatherFromWeatherPhenomena (Wp_qualifier p) (Wp_descriptor p) (Wp_weather p) = Ok l -> symbols_of p l.
Proof.
  intros p l (q & d & ws & e & (Sq & Sd & Sw & _) & Pq & Pd & Pw & _) N M H. unfold near_ok, misshown in *.
  unfold weatherFromWeatherPhenomena in H. destruct (WpQualifier_beq (Wp_qualifier p) Q_VICINITY) eqn:V.
  { apply q_bl in V. cbv zeta in H. apply same_ok in H. rewrite <- H. apply symbols_near; [exact V|]. apply near_symbol; [exact (N V)|]. intros F. apply M. right. split; assumption. }
  apply q_nl in V. assert (Pp : forall dd, proper_d dd -> (In W_ICE_PELLETS (Wp_weather p) -> dd = D_SHOWERS) -> forall r,
    phenomena_loop (Wp_qualifier p) dd (Wp_weather p) = Ok r -> Forall2 (best_symbol (Wp_qualifier p) dd) (Wp_weather p) r).
  { intros dd Pdd X r E. apply loop_best; try assumption; [rewrite Sq; exact Pq|rewrite Sw; exact Pw]. }
  assert (Ice : In W_ICE_PELLETS (Wp_weather p) -> Wp_descriptor p = D_SHOWERS).
  { intros I. destruct (WpDescriptor_eq_dec (Wp_descriptor p) D_SHOWERS); [assumption|]. destruct M. left. split; assumption. }
  destruct (WpDescriptor_beq (Wp_descriptor p) D_THUNDERSTORM) eqn:T.
  - apply d_bl in T. destruct (phenomena_loop _ D_NONE _) as [r|] eqn:E; [|discriminate]. cbn [bind] in H. apply same_ok in H. rewrite <- H.
    apply symbols_storm; [exact V|exact T|]. apply Pp; [exact I| |exact E]. intros J. apply Ice in J. rewrite T in J. discriminate.
  - apply symbols_here; [exact V|intros X; rewrite X in T; discriminate|]. apply Pp; [rewrite Sd; exact Pd|exact Ice|exact H].
Qed.
Lemma loop_length : forall q d ws l, phenomena_loop q d ws = Ok l -> List.length l = List.length ws.
Proof.
  intros q d ws. induction ws as [|w ws IH]; intros l H; cbn [phenomena_loop] in H; [apply same_ok in H; rewrite <- H; reflexivity|].
  destruct (phenomenaFromWeatherGroup q d w) as [s|]; [|discriminate]. cbn [bind] in H.
  destruct (phenomena_loop q d ws) as [r|]; [|discriminate]. cbn [bind] in H. apply same_ok in H. rewrite <- H. cbn [List.length]. rewrite (IH r eq_refl). reflexivity.
Qed.
Lemma symbols_length : forall p l, weatherFromWeatherPhenomena (Wp_qualifier p) (Wp_descriptor p) (Wp_weather p) = Ok l -> List.length l = symbol_count p.
Proof.
  intros p l H. unfold weatherFromWeatherPhenomena in H. unfold symbol_count. generalize dependent (Wp_weather p). intros ws H.
  destruct (WpQualifier_beq (Wp_qualifier p) Q_VICINITY) eqn:V.
  { apply q_bl in V. rewrite V. cbv zeta in H. apply same_ok in H. rewrite <- H. reflexivity. }
  apply q_nl in V. destruct (WpDescriptor_beq (Wp_descriptor p) D_THUNDERSTORM) eqn:T.
  - apply d_bl in T. rewrite T. destruct (phenomena_loop _ D_NONE ws) as [r|] eqn:E; [|discriminate]. cbn [bind] in H. apply same_ok in H. rewrite <- H.
    apply loop_length in E. cbn [List.length]. rewrite E. destruct (Wp_qualifier p); try reflexivity. contradiction.
  - apply loop_length in H. rewrite H. destruct (Wp_qualifier p); try contradiction; destruct (Wp_descriptor p); try reflexivity; discriminate.
Qed.
Lemma phenomena_symbols : forall ps l, Forall wp_wf ps -> Forall near_ok ps ->
  weather_loop ps = Ok l -> all_symbols misshown ps l.
Proof.
  intros ps. induction ps as [|p ps IH]; intros l W N H; cbn [weather_loop] in H; [injection H as <-; constructor|].
  inversion W; inversion N; subst. destruct (weatherFromWeatherPhenomena _ _ _) as [a|] eqn:A; [|discriminate]. cbn [bind] in H.
  destruct (weather_loop ps) as [b|] eqn:B; [|discriminate]. cbn [bind] in H. apply same_ok in H. rewrite <- H. constructor; [|intros M|apply IH; auto].
  - apply symbols_length. exact A.
  - apply phenomenon_symbols; assumption.
Qed.
Lemma weather_loop_app : forall a b l m, weather_loop a = Ok l -> weather_loop b = Ok m -> weather_loop (a ++ b) = Ok (l ++ m).
Proof.
  intros a. induction a as [|p a IH]; intros b l m A B; cbn [weather_loop app] in *; [injection A as <-; exact B|].
  destruct (weatherFromWeatherPhenomena _ _ _) as [x|]; [|discriminate]. cbn [bind] in *.
  destruct (weather_loop a) as [y|] eqn:Y; [|discriminate]. cbn [bind] in A. injection A as <-. rewrite (IH b y m eq_refl B). cbn [bind].
  rewrite app_assoc. reflexivity.
Qed.

(** *** The sky *)
Definition sky_step (s : Sky) (g : Group) : Sky :=
  match g with
  | GCloud k => cloudFromCloudGroupAmount s (cl_amnt k)
  | GKeyword k => if KwType_beq (kw_t k) Kw_CAVOK then Sky_MOSTLY_CLEAR else s
  | _ => s
  end.
Definition skies (s : Sky) (gs : list Group) : Sky := fold_left sky_step gs s.
Definition view (counts : WeatherGroup -> bool) (gs : list Group) (w w' : CurrentWeather) : Prop :=
  (exists l, weather_loop (phenomena_in counts gs) = Ok l /\ cw_weather w' = cw_weather w ++ l) /\ cw_cloud w' = skies (cw_cloud w) gs.
Lemma view_skip : forall c g gs w w1 w', match g with GWeather k => c k = false | _ => True end ->
  cw_weather w1 = cw_weather w -> cw_cloud w1 = sky_step (cw_cloud w) g -> view c gs w1 w' -> view c (g :: gs) w w'.
Proof.
  intros c g gs w w1 w' C A B ((l & E & F) & D). split.
  - exists l. rewrite <- A. split; [|exact F]. destruct g; cbn [phenomena_in flat_map]; try exact E. rewrite C. exact E.
  - unfold skies. cbn [fold_left]. rewrite <- B. exact D.
Qed.
Lemma view_weather : forall c k gs w w' l, c k = true -> weather_loop (WeatherGroup_weatherPhenomena k) = Ok l ->
  view c gs (cw_add_weather w l) w' -> view c (GWeather k :: gs) w w'.
Proof.
  intros c k gs w w' l C E ((m & F & G) & D). split; [|exact D]. exists (l ++ m). split.
  - cbn [phenomena_in flat_map]. rewrite C. apply weather_loop_app; assumption.
  - rewrite G. cbn [cw_add_weather cw_weather]. rewrite <- app_assoc. reflexivity.
Qed.
Lemma view_nil : forall c w, view c [] w w.
Proof. intros c w. split; [|reflexivity]. exists []. rewrite app_nil_r. auto. Qed.
Lemma keyword_view : forall i k w w1, summary_keyword i k w = Ok w1 -> cw_weather w1 = cw_weather w /\ cw_cloud w1 = sky_step (cw_cloud w) (GKeyword k).
Proof.
  intros i k w w1 H. unfold summary_keyword in H. cbn [sky_step]. destruct (KwType_beq _ _); [|injection H as <-; auto].
  destruct (assign_flt _ _); [|discriminate]. injection H as <-. auto.
Qed.
Ltac same H := repeat match type of H with bind ?e _ = Ok _ => destruct e; [cbn [bind] in H|discriminate H] | (if ?b then _ else _) = Ok _ => destruct b end; injection H as <-; auto.
Lemma wind_view : forall i k w w1, summary_wind i k w = Ok w1 -> cw_weather w1 = cw_weather w /\ cw_cloud w1 = cw_cloud w.
Proof. intros i k w w1 H. unfold summary_wind in H. same H. Qed.
Lemma pressure_view : forall i k w w1, summary_pressure i k w = Ok w1 -> cw_weather w1 = cw_weather w /\ cw_cloud w1 = cw_cloud w.
Proof. intros i k w w1 H. unfold summary_pressure in H. same H. Qed.
Lemma temperature_view : forall pow i v k w w1, summary_temperature pow i v k w = Ok w1 -> cw_weather w1 = cw_weather w /\ cw_cloud w1 = cw_cloud w.
Proof. intros pow i v k w w1 H. unfold summary_temperature in H. same H. Qed.
Lemma metar_view : forall pow i gs wind w w', metar_loop pow i wind gs w = Ok w' -> view current_weather (before_trend 0 gs) w w'.
Proof.
  intros pow i gs. induction gs as [|g gs IH]; intros wind w w' H; cbn [metar_loop before_trend] in *; [injection H as <-; apply view_nil|].
  destruct g; try (eapply view_skip; [exact I|reflexivity|reflexivity|eapply IH; exact H]).
  - destruct (summary_keyword i g w) as [w1|] eqn:E; [|discriminate]. cbn [bind] in H. destruct (keyword_view _ _ _ _ E).
    eapply view_skip; [exact I|eassumption|eassumption|eapply IH; exact H].
  - injection H as <-. apply view_nil.
  - destruct (is_surface_wind _).
    + destruct (summary_wind i g w) as [w1|] eqn:E; [|discriminate]. cbn [bind] in H. destruct (wind_view _ _ _ _ E).
      eapply view_skip; [exact I|eassumption|eassumption|eapply IH; exact H].
    + eapply view_skip; [exact I|reflexivity|reflexivity|eapply IH; exact H].
  - destruct (if is_prevailing _ then _ else _) as [v|]; [|discriminate]. cbn [bind] in H.
    eapply view_skip; [exact I| | |eapply IH; exact H]; reflexivity.
  - eapply view_skip; [exact I| | |eapply IH; exact H]; reflexivity.
  - destruct (WxType_beq _ _) eqn:T.
    + destruct (weather_loop _) as [l|] eqn:L; [|discriminate]. cbn [bind] in H. eapply view_weather; [exact T|exact L|]. eapply IH; exact H.
    + eapply view_skip; [exact T|reflexivity|reflexivity|eapply IH; exact H].
  - destruct (summary_temperature pow i wind g w) as [w1|] eqn:E; [|discriminate]. cbn [bind] in H. destruct (temperature_view _ _ _ _ _ _ E).
    eapply view_skip; [exact I|eassumption|eassumption|eapply IH; exact H].
  - destruct (summary_pressure i g w) as [w1|] eqn:E; [|discriminate]. cbn [bind] in H. destruct (pressure_view _ _ _ _ E).
    eapply view_skip; [exact I|eassumption|eassumption|eapply IH; exact H].
Qed.
Lemma taf_view : forall i gs n w w', (n <= 1)%nat -> taf_loop i n gs w = Ok w' -> view any_weather (before_trend (1 - n) gs) w w'.
Proof.
  intros i gs. induction gs as [|g gs IH]; intros n w w' Ln H; cbn [taf_loop before_trend] in *; [injection H as <-; apply view_nil|].
  destruct g; try (eapply view_skip; [exact I|reflexivity|reflexivity|eapply IH; [exact Ln|exact H]]).
  - destruct (summary_keyword i g w) as [w1|] eqn:E; [|discriminate]. cbn [bind] in H. destruct (keyword_view _ _ _ _ E).
    eapply view_skip; [exact I|eassumption|eassumption|eapply IH; [exact Ln|exact H]].
  - destruct n as [|[|n]]; [|cbn in *; injection H as <-; apply view_nil|lia].
    cbn [Nat.ltb Nat.leb Nat.sub] in *. eapply view_skip; [exact I|reflexivity|reflexivity|]. apply (IH 1%nat); [lia|exact H].
  - destruct (summary_wind i g w) as [w1|] eqn:E; [|discriminate]. cbn [bind] in H. destruct (wind_view _ _ _ _ E).
    eapply view_skip; [exact I|eassumption|eassumption|eapply IH; [exact Ln|exact H]].
  - destruct (assign_flt _ _) as [v|]; [|discriminate]. cbn [bind] in H. eapply view_skip; [exact I| | |eapply IH; [exact Ln|exact H]]; reflexivity.
  - eapply view_skip; [exact I| | |eapply IH; [exact Ln|exact H]]; reflexivity.
  - destruct (weather_loop _) as [l|] eqn:L; [|discriminate]. cbn [bind] in H. eapply view_weather; [reflexivity|exact L|]. eapply IH; [exact Ln|exact H].
Qed.
Lemma update_view : forall gs w y m d, cw_weather (reportReleaseTime w gs y m d) = cw_weather w /\ cw_cloud (reportReleaseTime w gs y m d) = cw_cloud w.
Proof.
  intros gs. induction gs as [|g gs IH]; intros w y m d; [auto|]. destruct g; cbn [reportReleaseTime]; try apply IH. cbv zeta.
  match goal with |- context [reportReleaseTime ?x _ _ _ _] => destruct (IH x y m d) as [-> ->] end. auto.
Qed.
(** The groups that count, and what is read from them *)
Lemma summary_view : forall pow sgn metar taf year month day i w,
  getCurrentWeather pow sgn metar taf year month day i = Ok w ->
  (forall gs, usable sgn metar RT_METAR gs -> Forall Reachable gs /\ view current_weather (before_trend 0 gs) cw_default w)
  /\ (forall gs, unusable sgn metar RT_METAR -> usable sgn taf RT_TAF gs \/ unusable sgn taf RT_TAF /\ gs = [] ->
     Forall Reachable gs /\ view any_weather (before_trend 1 gs) cw_default w).
Proof.
  intros pow sgn metar taf year month day i w H. unfold getCurrentWeather in H.
  destruct (parseReport_ok sgn metar RT_METAR) as (ms & Em & Rm). destruct (parseReport_ok sgn taf RT_TAF) as (ts & Et & Rt).
  rewrite Em, Et in H. cbn [bind] in H. apply parse_usable in Em, Et.
  assert (TS : forall gs, usable sgn taf RT_TAF gs \/ unusable sgn taf RT_TAF /\ gs = [] -> gs = ts).
  { intros gs [U|[U ->]]; destruct Et as [V|[V ->]]; try reflexivity; [exact (usable_unique _ _ _ _ _ U V)|destruct (V _ U)|destruct (U _ V)]. }
  assert (Fin : forall c gs g w1, temperatureForecastFromTaf (reportReleaseTime w1 g year month day) ts i = Ok w -> view c gs cw_default w1 -> view c gs cw_default w).
  { intros c gs g w1 F ((l & V1 & V2) & V3). unfold temperatureForecastFromTaf in F. destruct (minmax_loop _ _ _) as [lo hi]. same F.
    destruct (update_view g w1 year month day) as [A B]. split; [exists l; split; [exact V1|]|]; cbn [cw_set_forecast cw_weather cw_cloud]; congruence. }
  destruct ms as [|m ms].
  - destruct (taf_loop i 0 ts cw_default) as [w1|] eqn:L; unfold currentWeatherFromTaf in H; rewrite L in H; [|discriminate]. cbn [bind] in H.
    split.
    + intros gs U. destruct Em as [V|[V _]]; [destruct (usable_nonempty _ _ _ _ V eq_refl)|destruct (V _ U)].
    + intros gs _ T. apply TS in T. subst gs. split; [exact Rt|]. eapply Fin; [exact H|]. exact (taf_view i ts 0 _ _ ltac:(lia) L).
  - destruct (metar_loop pow i Speed_default (m :: ms) cw_default) as [w1|] eqn:L; unfold currentWeatherFromMetar in H; rewrite L in H; [|discriminate]. cbn [bind] in H.
    split.
    + intros gs U. destruct Em as [V|[_ V]]; [|discriminate]. rewrite (usable_unique _ _ _ _ _ U V) in *. split; [exact Rm|]. eapply Fin; [exact H|]. exact (metar_view _ _ _ _ _ _ L).
    + intros gs U _. destruct Em as [V|[_ V]]; [destruct (U _ V)|discriminate].
Qed.

Lemma in_before : forall gs n g, In g (before_trend n gs) -> In g gs.
Proof.
  intros gs. induction gs as [|h gs IH]; intros n g I; [exact I|]. destruct h; cbn [before_trend] in I;
    try (destruct I as [<-|I]; [left; reflexivity|right; exact (IH _ _ I)]).
  destruct n; [contradiction|]. destruct I as [<-|I]; [left; reflexivity|right; exact (IH _ _ I)].
Qed.
Lemma phenomena_reach : forall c gs, Forall Reachable gs -> Forall wp_wf (phenomena_in c gs) /\ Forall near_ok (phenomena_in c gs).
Proof.
  intros c gs H. induction H as [|g gs R _ [A B]]; [split; constructor|]. destruct g; cbn [phenomena_in flat_map]; try (split; assumption).
  destruct (c g); [|split; assumption]. split; apply Forall_app; (split; [|assumption]).
  - pose proof (reachable_inv _ R) as W. cbn in W. apply W.
  - apply reach_near. exact R.
Qed.
Lemma before_reach : forall n gs, Forall Reachable gs -> Forall Reachable (before_trend n gs).
Proof. intros n gs H. rewrite Forall_forall in *. intros g I. apply H. eapply in_before; exact I. Qed.
Theorem summary_symbols : forall pow sgn metar taf year month day i w,
  getCurrentWeather pow sgn metar taf year month day i = Ok w ->
  (forall gs, usable sgn metar RT_METAR gs ->
     all_symbols misshown (phenomena_in current_weather (before_trend 0 gs)) (cw_weather w))
  /\ (forall gs, unusable sgn metar RT_METAR -> usable sgn taf RT_TAF gs \/ unusable sgn taf RT_TAF /\ gs = [] ->
     all_symbols misshown (phenomena_in any_weather (before_trend 1 gs)) (cw_weather w)).
Proof.
  intros pow sgn metar taf year month day i w H. destruct (summary_view _ _ _ _ _ _ _ _ _ H) as [A B].
  assert (G : forall c n gs, Forall Reachable gs -> view c (before_trend n gs) cw_default w -> all_symbols misshown (phenomena_in c (before_trend n gs)) (cw_weather w)).
  { intros c n gs R ((l & E & ->) & _). destruct (phenomena_reach c _ (before_reach n gs R)) as [W N]. apply phenomena_symbols; assumption. }
  split; [intros gs U|intros gs U V]; apply G; first [apply A, U|apply B; assumption].
Qed.

(** *** What is known of the sky *)
Lemma skies_snoc : forall s gs g, skies s (gs ++ [g]) = sky_step (skies s gs) g.
Proof. intros. unfold skies. rewrite fold_left_app. reflexivity. Qed.
Lemma says_other : forall g b, says_sky g b -> match g with GCloud k => sky_of (cl_amnt k) = Some b | GKeyword k => kw_t k = Kw_CAVOK /\ b = Sky_MOSTLY_CLEAR | _ => False end.
Proof. intros g b [(k & -> & E)|(k & -> & E & ->)]; auto. Qed.
Definition sky_known (gs : list Group) (s : Sky) : Prop :=
  s = Sky_NOT_SPECIFIED /\ (forall g b, In g gs -> ~ says_sky g b)
  \/ s <> Sky_NOT_SPECIFIED /\ exists g a, In g gs /\ says_sky g a /\ sky_le s a.
Lemma sky_keep : forall gs s g, sky_known gs s -> (forall b, ~ says_sky g b) -> sky_known (gs ++ [g]) s.
Proof.
  intros gs s g [[E N]|(E & h & a & I & S & L)] Q; [left|right].
  - split; [exact E|]. intros h b I. apply in_app_or in I. destruct I as [I|[<-|[]]]; [exact (N _ _ I)|apply Q].
  - split; [exact E|]. exists h, a. split; [apply in_or_app; auto|auto].
Qed.
Lemma sky_new : forall gs s g a, says_sky g a -> s <> Sky_NOT_SPECIFIED -> sky_le s a -> sky_known (gs ++ [g]) s.
Proof. intros gs s g a S N L. right. split; [exact N|]. exists g, a. split; [apply in_or_app; right; left; reflexivity|auto]. Qed.
Lemma sky_older : forall gs s g, sky_known gs s -> s <> Sky_NOT_SPECIFIED -> sky_known (gs ++ [g]) s.
Proof.
  intros gs s g [[E _]|(E & h & a & I & S & L)] Q; [contradiction|]. right. split; [exact E|]. exists h, a. split; [apply in_or_app; auto|auto].
Qed.
Lemma sky_known_all : forall gs, sky_known gs (skies Sky_NOT_SPECIFIED gs).
Proof.
  intros gs. induction gs as [|g gs IH] using rev_ind; [left; split; [reflexivity|intros g b []]|].
  rewrite skies_snoc. generalize dependent (skies Sky_NOT_SPECIFIED gs). intros s IH.
  destruct g; try (apply sky_keep; [exact IH|intros b S; exact (says_other _ _ S)]).
  - cbn [sky_step]. destruct (KwType_beq (kw_t g) Kw_CAVOK) eqn:K.
    + apply internal_KwType_dec_bl in K. apply sky_new with Sky_MOSTLY_CLEAR; [right; exists g; auto|discriminate|apply Z.le_refl].
    + apply sky_keep; [exact IH|]. intros b S. apply says_other in S. destruct S as [S _]. rewrite S in K. discriminate.
  - cbn [sky_step]. destruct (cl_amnt g) eqn:A; cbn [cloudFromCloudGroupAmount];
      try (apply sky_keep; [exact IH|intros b S; apply says_other in S; rewrite A in S; discriminate]);
      destruct s; cbn [Sky_beq negb orb];
      try (apply sky_older; [exact IH|discriminate]);
      (eapply sky_new; [left; exists g; split; [reflexivity|rewrite A; reflexivity]|discriminate|vm_compute; discriminate]).
Qed.
Lemma order_prefix : forall gs g, layers_in_order (gs ++ [g]) -> layers_in_order gs.
Proof. intros gs g H a x b y c p q E. apply (H a x b y (c ++ [g])). rewrite E, <- !app_assoc. cbn [app]. rewrite <- app_assoc. reflexivity. Qed.
Lemma order_last : forall gs g h a b, layers_in_order (gs ++ [g]) -> In h gs -> says_sky h a -> says_sky g b -> sky_le a b.
Proof. intros gs g h a b H I A B. apply in_split in I. destruct I as (l & r & ->). apply (H l h r g [] a b); [|exact A|exact B]. rewrite <- app_assoc. reflexivity. Qed.
Lemma greatest_keep : forall gs s g, greatest_sky gs s -> (forall b, ~ says_sky g b) -> greatest_sky (gs ++ [g]) s.
Proof.
  intros gs s g [[E N]|((h & I & S) & L)] Q; [left|right].
  - split; [exact E|]. intros h b I. apply in_app_or in I. destruct I as [I|[<-|[]]]; [exact (N _ _ I)|apply Q].
  - split; [exists h; split; [apply in_or_app; auto|exact S]|]. intros h' b J. apply in_app_or in J. destruct J as [J|[<-|[]]]; [exact (L _ _ J)|].
    intros X. destruct (Q _ X).
Qed.
Lemma greatest_new : forall gs s g, says_sky g s -> layers_in_order (gs ++ [g]) -> greatest_sky (gs ++ [g]) s.
Proof.
  intros gs s g S O. right. split; [exists g; split; [apply in_or_app; right; left; reflexivity|exact S]|].
  intros h b I X. apply in_app_or in I. destruct I as [I|[<-|[]]]; [exact (order_last _ _ _ _ _ O I X S)|].
  apply says_other in S, X. destruct g; try contradiction; [destruct S, X; subst; apply Z.le_refl|rewrite S in X; injection X as <-; apply Z.le_refl].
Qed.
Lemma greatest_all : forall gs, layers_in_order gs -> no_variable_amounts gs -> greatest_sky gs (skies Sky_NOT_SPECIFIED gs).
Proof.
  intros gs. induction gs as [|g gs IH] using rev_ind; intros O V; [left; split; [reflexivity|intros g b []]|].
  specialize (IH (order_prefix _ _ O) (fun k I => V k (in_or_app _ _ _ (or_introl I)))).
  rewrite skies_snoc. generalize dependent (skies Sky_NOT_SPECIFIED gs). intros s IH.
  destruct g; try (apply greatest_keep; [exact IH|intros b S; exact (says_other _ _ S)]).
  - cbn [sky_step]. destruct (KwType_beq (kw_t g) Kw_CAVOK) eqn:K.
    + apply internal_KwType_dec_bl in K. apply greatest_new; [right; exists g; auto|exact O].
    + apply greatest_keep; [exact IH|]. intros b S. apply says_other in S. destruct S as [S _]. rewrite S in K. discriminate.
  - cbn [sky_step]. specialize (V g ltac:(apply in_or_app; right; left; reflexivity)).
    assert (Low : forall b, sky_of (cl_amnt g) = Some b -> sky_le s b \/ s = Sky_NOT_SPECIFIED).
    { intros b E. destruct IH as [[E' _]|((h & I & S) & _)]; [right; exact E'|left]. apply (order_last gs (GCloud g) h); [exact O|exact I|exact S|]. left. exists g. auto. }
    assert (Says : forall b, sky_of (cl_amnt g) = Some b -> says_sky (GCloud g) b) by (intros b E; left; exists g; auto).
    destruct (cl_amnt g) eqn:A; cbn [cloudFromCloudGroupAmount sky_of] in *;
      try (exfalso; apply V; cbn; tauto);
      try (apply greatest_keep; [exact IH|intros b S; apply says_other in S; rewrite A in S; discriminate]);
      destruct (Low _ eq_refl) as [L|L]; destruct s; try discriminate L; cbn [Sky_beq negb orb];
      try (exfalso; vm_compute in L; apply L; reflexivity); (apply greatest_new; [apply Says; reflexivity|exact O]).
Qed.
Theorem summary_sky : forall pow sgn metar taf year month day i w,
  getCurrentWeather pow sgn metar taf year month day i = Ok w ->
  (forall gs, usable sgn metar RT_METAR gs -> sky_specified (before_trend 0 gs) (cw_cloud w))
  /\ (forall gs, unusable sgn metar RT_METAR -> usable sgn taf RT_TAF gs \/ unusable sgn taf RT_TAF /\ gs = [] ->
     sky_specified (before_trend 1 gs) (cw_cloud w)).
Proof.
  intros pow sgn metar taf year month day i w H. destruct (summary_view _ _ _ _ _ _ _ _ _ H) as [A B].
  assert (G : forall c gs, view c gs cw_default w -> sky_specified gs (cw_cloud w)).
  { intros c gs (_ & ->). change (cw_cloud cw_default) with Sky_NOT_SPECIFIED. destruct (sky_known_all gs) as [[-> N]|(N & g & a & I & S & L)]; split.
    - split; auto.
    - intros X. contradiction.
    - split; [contradiction|]. intros X. destruct (X g a I S).
    - intros _. exists g, a. auto. }
  split; [intros gs U|intros gs U V]; eapply G; first [apply A, U|apply B; assumption].
Qed.
Theorem summary_greatest : forall pow sgn metar taf year month day i w,
  getCurrentWeather pow sgn metar taf year month day i = Ok w ->
  (forall gs, usable sgn metar RT_METAR gs ->
     layers_in_order (before_trend 0 gs) -> no_variable_amounts (before_trend 0 gs) -> greatest_sky (before_trend 0 gs) (cw_cloud w))
  /\ (forall gs, unusable sgn metar RT_METAR -> usable sgn taf RT_TAF gs \/ unusable sgn taf RT_TAF /\ gs = [] ->
     layers_in_order (before_trend 1 gs) -> no_variable_amounts (before_trend 1 gs) -> greatest_sky (before_trend 1 gs) (cw_cloud w)).
Proof.
  intros pow sgn metar taf year month day i w H. destruct (summary_view _ _ _ _ _ _ _ _ _ H) as [A B].
  assert (G : forall c gs, view c gs cw_default w -> layers_in_order gs -> no_variable_amounts gs -> greatest_sky gs (cw_cloud w)).
  { intros c gs (_ & ->). apply greatest_all. }
  split; [intros gs U|intros gs U V]; eapply G; first [apply A, U|apply B; assumption].
Qed.
