(** Proofs for C72: groups for which what is reported depends on the type. *)
From Coq Require Import List String Lia.
From Verif Require Import Prim Lib Float Values Weather Groups1 Groups2 Groups3 Groups4 Parser
  Format Explain SpecExplain SpecKinds SpecFacts Pf_ExTable Pf_ExShown Pf_ExFacts.
From Verif Require SpecTrend SpecWind SpecVisibility SpecClouds SpecReadings SpecMinMax SpecAmounts SpecWeatherGroup.
Import ListNotations.
Local Open Scope string_scope.

Ltac absent N := exfalso; solve [cbn in N; repeat (destruct N as [N|N]; [discriminate N|]); destruct N].
Ltac one := first [apply Forall_nil | apply Forall_cons; [told; find|apply Forall_nil]
                  | is_given; intros ?; told; find].

Lemma trend_complete : forall part ws g raw, SpecTrend.Trend part ws (SpecTrend.shown_by g) -> complete (visit_Trend g part raw) (GTrend g).
Proof.
  intros part ws [t p f u a inc] raw H. unfold SpecTrend.shown_by in H. cbn [tr_t tr_prob tr_from tr_till tr_at] in H.
  unfold complete, facts, visit_Trend. cbn [tr_t tr_prob tr_from tr_till tr_at].
  assert (W : forall w v, SpecTrend.change_word w v -> v = Tr_BECMG \/ v = Tr_TEMPO \/ v = Tr_INTER)
    by (intros w v C; repeat (destruct C as [C|C]; [apply (f_equal snd) in C; cbn [snd] in C; subst v; tauto|]); destruct C).
  assert (Q : forall w v, SpecTrend.prob_word w v -> v = Pr_30 \/ v = Pr_40)
    by (intros w v C; repeat (destruct C as [C|C]; [apply (f_equal snd) in C; cbn [snd] in C; subst v; tauto|]); destruct C).
  inversion H; subst; clear H;
    try match goal with C : SpecTrend.change_word _ _ |- _ => destruct (W _ _ C) as [M|[M|M]]; subst end;
    try match goal with C : SpecTrend.prob_word _ _ |- _ => destruct (Q _ _ C) as [M|M]; subst end;
    try congruence; each; one.
Qed.

Ltac fields V := injection V; clear V; intros; subst.
Lemma wind_complete : forall part now ws g raw, SpecWind.Wind part now ws (SpecWind.told_by g) -> complete (visit_Wind g part raw) (GWind g).
Proof.
  intros part now ws [type dir0 speed0 gust0 height b e time0 rw inc] raw H. remember (SpecWind.told_by _) as v eqn:V. unfold SpecWind.told_by in V.
  unfold complete, facts, visit_Wind. cbn [wi_type wi_dir wi_speed wi_gust wi_height wi_vsecBegin wi_vsecEnd wi_evTime wi_rw] in *.
  destruct H as [w speed P C|w dir speed gust P B N|h w v dir speed gust P B N|w from till P S|w dir speed gust x from till P B N S
                 |w r P R|P|P|P|d v x dir speed t P B S T|P|P|x t P T|x t P T]; fields V; each; try one.
  all: is_given; intros _; left; destruct C as (u & unit & _ & _ & ->); split; reflexivity.
Qed.
(** A runway visual range without runway has no value, nor have groups which say that there is none;
    and the direction given for a visibility without directional variation says_all just that. *)
Lemma visibility_extra : forall part ws g, SpecVisibility.Visibility part ws (SpecVisibility.seen_by g) ->
  (vi_type g = Vi_RVR /\ vi_rw g = None \/ In (vi_type g) [Vi_VIS_MISG; Vi_RVR_MISG; Vi_RVRNO; Vi_VISNO] ->
     Distance_isReported (VisibilityGroup_visibility g) = false)
  /\ (vi_type g = Vi_PREVAILING_NDV -> forall d, vi_dir g = Some d -> dirType d = DT_NDV).
Proof.
  intros part ws g H. remember (SpecVisibility.seen_by _) as v eqn:V. unfold SpecVisibility.seen_by in V.
  destruct H; try match goal with R : SpecVisibility.Runway_range _ _ |- _ => destruct R end;
    try match goal with p : SpecVisibility.place |- _ => destruct p end;
    try match goal with O : In (_, _) [("SFC", _); ("TWR", _)] |- _ => destruct O as [O|[O|[]]]; apply (f_equal snd) in O; cbn [snd] in O; subst end;
    apply (f_equal (fun s => (SpecVisibility.s_type s, SpecVisibility.s_runway s, SpecVisibility.s_visibility s, SpecVisibility.s_direction s))) in V;
    cbn in V; injection V; clear V; intros D X R T; rewrite <- ?T, <- ?R, <- ?D, <- ?X;
    (split; [intros [[E E']|E]; [first [discriminate E | discriminate E' | destruct feet; reflexivity]
                                |first [reflexivity | repeat (destruct E as [E|E]; [discriminate E|]); destruct E]]
            |intros E; first [discriminate E | intros ? E'; first [discriminate E' | injection E' as <-; reflexivity]]]).
Qed.
Lemma visibility_complete : forall part ws g raw, SpecVisibility.Visibility part ws (SpecVisibility.seen_by g) ->
  SpecVisibility.fields_match_type g -> complete (visit_Visibility g part raw) (GVisibility g).
Proof.
  intros part ws g raw H (Fmax & Fmin & Fvis & Frw & Fdir & Fsec & _ & _ & Ftr). destruct (visibility_extra _ _ _ H) as (X1 & X2). clear H.
  unfold complete, facts, visit_Visibility. each.
  - is_given. intros E. told. specialize (Fvis E). rewrite E in X1. clear Fmax Fmin Frw Fdir Fsec Ftr X2.
    destruct (vi_type g); try (exfalso; apply Fvis; solve [repeat (first [left; reflexivity | right])]);
      try (assert (A : true = false) by (apply X1; right; solve [repeat (first [left; reflexivity | right])]); discriminate A); try find.
    destruct (vi_rw g) as [r|]; [cbn [has_value negb]; cbv match; find|]. assert (A : true = false) by (apply X1; left; split; reflexivity). discriminate A.
  - is_given. intros E. told. specialize (Fmin E).
    destruct (vi_type g); try absent Fmin; find.
  - is_given. intros E. told. apply Fmax in E. rename E into Fm. clear Fmin.
    destruct (vi_type g); try absent Fm; find.
  - apply any_all. intros d E. is_given. intros _. assert (N : vi_dir g <> None) by (rewrite E; discriminate). apply Fdir in N.
    destruct (vi_type g) eqn:T; try absent N;
      try (told; rewrite E; find). left. split; [exact T|]. exact (X2 eq_refl _ E).
  - apply any_all. intros d E. is_given. intros _. assert (N : vi_rw g <> None) by (rewrite E; discriminate). apply Frw in N. told.
    destruct (vi_type g) eqn:T; try absent N;
      rewrite E; cbn [has_value negb]; cbv match; find.
  - apply points_all. intros l d E Hd. assert (N : VisibilityGroup_sectorDirections g <> Ok nil) by (rewrite E; intros A; apply ok_same in A; subst l; destruct Hd).
    apply Fsec in N. destruct (vi_type g) eqn:T; try absent N.
    + told. apply after_later, after_here. do 2 apply after_later. apply after_line, after_here. refine (after_bind _ _ _ _ _ _ _ E _). apply after_sector; [exact Hd|intros _; lab].
    + told. apply after_later, after_here. do 4 apply after_later. apply after_line, after_here. refine (after_bind _ _ _ _ _ _ _ E _). apply after_sector; [exact Hd|intros _; lab].
    + right. left. exact T.
  - apply words_all. intros E. assert (N : vi_trend g <> Vt_NONE) by (intros A; rewrite A in E; discriminate E). apply Ftr in N.
    assert (S : after "" (when (negb (ViTrend_beq (vi_trend g) Vt_NONE)) (say [put ", and the trend is "; put (visTrendToString (vi_trend g))]))
                  ["trend is "] (Words (trend_words (vi_trend g))))
      by (rewrite E; destruct (vi_trend g); [discriminate E|find..]).
    destruct (vi_type g) eqn:T; try absent N.
    + destruct (vi_rw g) as [r|] eqn:R; [|right; left; split; assumption]. told. cbn [has_value negb]. cbv match.
      apply after_later, after_here. do 4 apply after_later. apply after_here. apply S.
    + told. apply after_later, after_here. do 6 apply after_later. apply after_here. apply S.
Qed.

Lemma cloud_complete : forall part ws g raw, SpecClouds.Clouds part ws (SpecClouds.sky_of g) -> complete (visit_Cloud g part raw) (GCloud g).
Proof.
  intros part ws g raw H. remember (SpecClouds.sky_of _) as v eqn:V. unfold SpecClouds.sky_of in V.
  assert (T : cl_tp g = SpecClouds.k_type v) by (rewrite V; reflexivity).
  assert (A : cl_amnt g = SpecClouds.k_amount v) by (rewrite V; reflexivity).
  assert (Hh : CloudGroup_height g = SpecClouds.k_height v) by (rewrite V; reflexivity).
  assert (Hmin : CloudGroup_minHeight g = SpecClouds.k_minimum v) by (rewrite V; reflexivity).
  assert (Hmax : CloudGroup_maxHeight g = SpecClouds.k_maximum v) by (rewrite V; reflexivity).
  assert (Hv : CloudGroup_verticalVisibility g = SpecClouds.k_vertical v) by (rewrite V; reflexivity).
  assert (Cv : cl_conv g = SpecClouds.k_convective v) by (rewrite V; reflexivity).
  assert (R : cl_rw g = SpecClouds.k_runway v) by (rewrite V; reflexivity).
  assert (D : cl_dir g = SpecClouds.k_direction v) by (rewrite V; reflexivity).
  assert (C : CloudGroup_cloudType g = SpecClouds.k_cloud v) by (rewrite V; reflexivity).
  clear V. unfold complete, facts, visit_Cloud. rewrite A, Hh, Hmin, Hmax, Hv, Cv, R, D, C. rewrite T.
  destruct H; cbn [SpecClouds.k_type SpecClouds.k_amount SpecClouds.k_height SpecClouds.k_minimum SpecClouds.k_maximum SpecClouds.k_vertical
    SpecClouds.k_convective SpecClouds.k_runway SpecClouds.k_direction SpecClouds.k_cloud SpecClouds.plain] in *; each;
  try apply Forall_nil;
  try (apply words_all; intros E; told; repeat match goal with a : ClAmount |- _ => destruct a | c : ClConv |- _ => destruct c end; solve [discriminate E | find]);
  try (is_given; intros E; told; find);
  try (apply any_all; intros d0 E; rewrite E; is_given; intros _; told; cbv match; find);
  try (apply Forall_cons; [left; cbn [said_otherwise]; tauto|apply Forall_nil]).
  - apply words_all. intros E. left. right. exact T.
  - is_given. intros E. told. apply after_later, after_here, after_later, after_here.
    unfold explainCloudType. cbn [ctTp ctHt ctOkt]. find.
  - apply Forall_cons; [told; find|apply Forall_nil].
Qed.

Lemma weather_told : forall g p part raw, In p (WeatherGroup_weatherPhenomena g) -> In (wx_t g) [Wx_CURRENT; Wx_RECENT; Wx_EVENT] ->
  forall labels x, after newline (explainWeatherPhenomena p) labels x -> after "" (visit_Weather g part raw) labels x.
Proof.
  intros g p part raw Hi T labels x S. unfold visit_Weather. apply after_later, after_here.
  destruct (wx_t g); try absent T; apply after_later, after_here; (apply (after_map _ _ _ p); [exact Hi|apply after_line, after_here; exact S]).
Qed.
Lemma weather_time : forall p t, specialWeatherPhenomenaToString p = "" -> Wp_event p = Ev_BEGINNING \/ Wp_event p = Ev_ENDING -> wpTm p = Some t ->
  after newline (explainWeatherPhenomena p) (event_label (Wp_event p)) (Time t).
Proof.
  intros p t S E T. unfold explainWeatherPhenomena. rewrite S. cbn [sempty negb]. cbv match. do 6 apply after_later. apply after_here.
  rewrite T. destruct E as [E|E]; rewrite E; find.
Qed.
Lemma no_times : forall part words ps, Forall2 (SpecWeatherGroup.Word part) words ps -> forall p, In p ps -> SpecWeatherGroup.ph_time p = None.
Proof. intros part words ps H. induction H as [|w q words ps W F IH]; intros p Hp; [destruct Hp|]. destruct Hp as [<-|Hp]; [destruct W; reflexivity|exact (IH _ Hp)]. Qed.
Lemma event_times : forall now before ss ps, SpecWeatherGroup.Events now before ss ps -> forall p, In p ps ->
  SpecWeatherGroup.ph_event p = Ev_BEGINNING \/ SpecWeatherGroup.ph_event p = Ev_ENDING.
Proof.
  intros now before ss ps H. induction H as [|before s q ss ps E F IH]; intros p Hp; [destruct Hp|].
  destruct Hp as [<-|Hp]; [destruct E; assumption|exact (IH _ Hp)].
Qed.
Lemma firstn_in : forall (A : Type) n (l : list A) x, In x (firstn n l) -> In x l.
Proof. intros A n l x H. rewrite <- (firstn_skipn n l). apply in_or_app. left. exact H. Qed.
Lemma weather_complete : forall part now ws g raw, SpecWeatherGroup.WeatherTold part now ws (SpecWeatherGroup.weather_told g) ->
  complete (visit_Weather g part raw) (GWeather g).
Proof.
  intros part now ws g raw H. remember (SpecWeatherGroup.weather_told g) as v eqn:V. unfold SpecWeatherGroup.weather_told in V.
  assert (T : wx_t g = fst v) by (rewrite V; reflexivity).
  assert (L : map SpecWeatherGroup.seen (WeatherGroup_weatherPhenomena g) = snd v) by (rewrite V; reflexivity). clear V.
  assert (K : WeatherGroup_weatherPhenomena g = [] \/ In (wx_t g) [Wx_CURRENT; Wx_RECENT; Wx_EVENT]
    /\ forall p, In p (WeatherGroup_weatherPhenomena g) -> wpTm p = None \/ Wp_event p = Ev_BEGINNING \/ Wp_event p = Ev_ENDING).
  { assert (I : forall p, In p (WeatherGroup_weatherPhenomena g) -> In (SpecWeatherGroup.seen p) (snd v)) by (intros p Hp; rewrite <- L; apply in_map; exact Hp).
    destruct H; cbn [fst snd] in *; try (left; destruct (WeatherGroup_weatherPhenomena g); [reflexivity|discriminate L]); right.
    - split; [left; symmetry; exact T|]. intros p Hp. left. exact (no_times _ _ _ H1 _ (I _ Hp)).
    - split; [right; left; symmetry; exact T|]. intros p Hp. left. exact (no_times _ _ _ H1 _ (I _ Hp)).
    - split; [told; left; symmetry; exact T|]. intros p Hp. right. exact (event_times _ _ _ _ H2 _ (firstn_in _ _ _ _ (I _ Hp))). }
  unfold complete, facts. destruct K as [K|(K & Tm)]; [rewrite K; constructor|]. apply Forall_app. split; [apply label_all|]; apply Forall_forall; intros x Hx.
  - apply in_map_iff in Hx. destruct Hx as (p & <- & Hp). told. refine (weather_told _ _ _ _ Hp K _ _ _). cbn [fst snd]. find.
  - apply in_flat_map in Hx. destruct Hx as (p & Hp & Hx). destruct (wpTm p) as [t|] eqn:E; [|destruct Hx]. destruct Hx as [<-|[]].
    destruct (string_dec (specialWeatherPhenomenaToString p) "") as [S|S].
    + told. refine (weather_told _ _ _ _ Hp K _ _ _). apply weather_time; [exact S| |exact E]. destruct (Tm _ Hp) as [N|N]; [congruence|exact N].
    + right. left. exists p. repeat split; assumption.
Qed.
Lemma temperature_complete : forall pow part ws g raw, SpecReadings.Temperatures part ws (tg_tp g) (tg_t g) (tg_dp g) ->
  complete (visit_Temperature pow g part raw) (GTemperature g).
Proof.
  intros pow part ws g raw H. unfold complete, facts, visit_Temperature.
  inversion H; subst; clear H; each; try (is_given; intros _; told; find).
  all: apply Forall_nil.
Qed.
Lemma pressure_complete : forall part ws g raw, SpecReadings.Pressures part ws (pg_t g) (pg_p g) -> complete (visit_Pressure g part raw) (GPressure g).
Proof.
  intros part ws g raw H. unfold complete, facts, visit_Pressure.
  inversion H; subst; clear H; each; try (is_given; intros _; told; find).
  all: apply Forall_nil.
Qed.
Lemma tendency_complete : forall part ws g raw, SpecReadings.Tendency part ws (pt_type g) (PressureTendency_trend (pt_type g)) (pt_difference g) ->
  complete (visit_PressureTendency g part raw) (GPressureTendency g).
Proof.
  intros part ws g raw H. unfold complete, facts, visit_PressureTendency. each.
  inversion H as [P W T R D|P W T R D|c t trend d p P I D W T R E]; clear H.
  - apply Forall_nil.
  - apply Forall_nil.
  - is_given. intros _. told. apply after_later, after_here.
    assert (N : pt_type g <> Pt_RISING_RAPIDLY /\ pt_type g <> Pt_FALLING_RAPIDLY).
    { subst t. clear - I. repeat (destruct I as [I|I]; [apply (f_equal (fun x => fst (snd x))) in I; cbn [fst snd] in I; rewrite <- I; split; discriminate|]). destruct I. }
    destruct N as (N & N'). destruct (pt_type g); try (exfalso; congruence); find.
Qed.
Lemma minmax_complete : forall part ws g raw, SpecMinMax.MinMax part ws (SpecMinMax.extremes_of g) -> complete (visit_MinMaxTemperature g part raw) (GMinMaxTemperature g).
Proof.
  intros part ws [t lo hi tlo thi inc] raw H. remember (SpecMinMax.extremes_of _) as v eqn:V. unfold SpecMinMax.extremes_of in V.
  unfold complete, facts, visit_MinMaxTemperature. cbn [mm_t mm_minTemp mm_maxTemp mm_minTime mm_maxTime] in *.
  assert (W : forall l w x y, SpecMinMax.forecast_word l w x y -> Temperature_isReported x = true).
  { intros l w x y (a & b & _ & D & _). destruct D as (minus & d & v0 & _ & _ & ->). reflexivity. }
  destruct H; fields V; repeat match goal with F : SpecMinMax.forecast_word _ _ _ _ |- _ => apply W in F end; each; one.
Qed.
Lemma precipitation_complete : forall part now ws g raw, SpecAmounts.Precipitations part now ws (pc_type g) (pc_amount g) (pc_change g) ->
  complete (visit_Precipitation g part raw) (GPrecipitation g).
Proof.
  intros part now ws [t a c inc] raw H. cbn [pc_type pc_amount pc_change] in H.
  unfold complete, facts, visit_Precipitation. cbn [pc_type pc_amount pc_change].
  destruct H; try solve [each; one].
  - each; [|apply Forall_nil]. is_given. intros _. told. clear -H0.
    assert (F : In (SpecAmounts.frozen now) [Pc_FROZEN_PRECIP_3_OR_6_HOURLY; Pc_FROZEN_PRECIP_3_HOURLY; Pc_FROZEN_PRECIP_6_HOURLY])
      by (unfold SpecAmounts.frozen; repeat match goal with |- context [match ?x with _ => _ end] => destruct x end; cbn; tauto).
    repeat (destruct H0 as [H0|H0]; [apply (f_equal snd) in H0; cbn [snd] in H0; subst t; try (revert F; generalize (SpecAmounts.frozen now); intros f [F|[F|[F|[]]]]; subst f); find|]). destruct H0.
  - each; [|apply Forall_nil]. is_given. intros _. told. clear -H0.
    repeat (destruct H0 as [H0|H0]; [apply (f_equal snd) in H0; cbn [snd] in H0; subst t; find|]). destruct H0.
Qed.
Lemma state_complete : forall part ws g raw, SpecReadings.Runway_state part ws g -> complete (visit_RunwayState g part raw) (GRunwayState g).
Proof.
  intros part ws g raw H. unfold complete, facts, visit_RunwayState. destruct H as [w P W|w r P W|w r d f P W D|w r d f P W D|w r a dp b ext c depth d f P W A B C D];
    cbn [rs_rw rs_tp rs_dp rs_ext rs_dDepth rs_sf]; try solve [each; one].
  each; [one|..]; destruct (string_dec c "99") as [E|E].
  - apply words_all. intros _. right. left. right. reflexivity.
  - apply words_all. intros K. told. clear -K. destruct dp; first [discriminate K | find].
  - apply words_all. intros _. right. left. right. reflexivity.
  - apply words_all. intros X. destruct (RsDeposits_beq dp De_CLEAR_AND_DRY) eqn:K.
    + right. left. left. split; [reflexivity|]. split; [destruct dp; try discriminate K; reflexivity|reflexivity].
    + told. cbn [negb]. clear -X. destruct ext; first [discriminate X | find].
  - is_given. intros _. right. left. right. reflexivity.
  - is_given. intros _. destruct (RsDeposits_beq dp De_CLEAR_AND_DRY) eqn:K.
    + right. left. left. split; [reflexivity|]. destruct dp; try discriminate K; reflexivity.
    + told. cbn [negb]. find.
  - is_given. intros _. right. left. reflexivity.
  - one.
Qed.
Lemma misc_complete : forall part ws g raw, SpecAmounts.Misc part ws (ms_type g) (ms_data g) -> complete (visit_Misc g part raw) (GMisc g).
Proof.
  intros part ws [t x inc] raw H. cbn [ms_type ms_data] in H. unfold complete, facts, visit_Misc. cbn [ms_type ms_data].
  destruct H as [w t P I|l t d v x P I N E|n c x P G E|d v x P N E|P|P|d v x P N D E|f q x P I E|d n f q x P N M I E]; each; try one.
  - destruct I as [I|[I|[]]]; apply (f_equal snd) in I; cbn [snd] in I; subst t; one.
  - apply Forall_cons; [|apply Forall_nil]. destruct (flt_is_zero x) eqn:Z; [left; split; [reflexivity|exact Z]|].
    told. apply after_later, after_here. cbn [deref bind]. rewrite Z. cbn [negb]. cbv match. find.
  - apply Forall_cons; [|apply Forall_nil]. told. cbn [has_value negb]. cbv match. find.
Qed.

(** ** Every group of every report *)
From Verif Require Import Parser.
From Verif Require Pf_Trend Pf_WindWords Pf_Visibility Pf_Clouds Pf_WeatherGroup Pf_Temperatures Pf_Pressures Pf_RunwayStates Pf_MinMax
  Pf_Amounts Pf_Tendencies Pf_Miscs.
Theorem every_value_told : forall pow sgn report limit r, parse sgn report limit = Ok r ->
  forall g part raw, In (mkGroupInfo g part raw) (pr_groups r) -> raw <> "" ->
  forall s, Visitor_visit (Ok "") (VisitorExplain pow) g part raw = Ok s ->
  forall labels x, In (labels, x) (facts g) -> said_otherwise g x \/ left_out g x \/ tells_as s labels x.
Proof.
  intros pow sgn report limit r E g part raw Hi N s V labels x Hx.
  assert (C : complete (Visitor_visit (Ok "") (VisitorExplain pow) g part raw) g).
  { destruct g as [g|g|g|g|g|g|g|g|g|g|g|g|g|g|g|g|g|g|g|g|g|g].
    - constructor.
    - exact (location_complete _ _ _).
    - exact (report_time_complete _ _ _).
    - exact (trend_complete _ _ _ _ (Pf_Trend.result_trend _ _ _ _ E _ _ _ Hi N)).
    - exact (wind_complete _ _ _ _ _ (Pf_WindWords.result_wind _ _ _ _ E _ _ _ Hi N)).
    - exact (visibility_complete _ _ _ _ (Pf_Visibility.result_visibility _ _ _ _ E _ _ _ Hi N) (Pf_Visibility.result_fields _ _ _ _ E _ _ _ Hi N)).
    - exact (cloud_complete _ _ _ _ (Pf_Clouds.result_cloud _ _ _ _ E _ _ _ Hi N)).
    - exact (weather_complete _ _ _ _ _ (Pf_WeatherGroup.result_weather_group _ _ _ _ E _ _ _ Hi N)).
    - exact (temperature_complete _ _ _ _ _ (Pf_Temperatures.result_temperature _ _ _ _ E _ _ _ Hi N)).
    - exact (pressure_complete _ _ _ _ (Pf_Pressures.result_pressure _ _ _ _ E _ _ _ Hi N)).
    - exact (state_complete _ _ _ _ (Pf_RunwayStates.result_state _ _ _ _ E _ _ _ Hi N)).
    - exact (sea_complete _ _ _).
    - exact (minmax_complete _ _ _ _ (Pf_MinMax.result_minmax _ _ _ _ E _ _ _ Hi N)).
    - exact (precipitation_complete _ _ _ _ _ (Pf_Amounts.result_precipitation _ _ _ _ E _ _ _ Hi N)).
    - exact (layer_complete _ _ _).
    - exact (tendency_complete _ _ _ _ (Pf_Tendencies.result_tendency _ _ _ _ E _ _ _ Hi N)).
    - exact (types_complete _ _ _).
    - exact (codes_complete _ _ _).
    - exact (lightning_complete _ _ _).
    - exact (vicinity_complete _ _ _).
    - exact (misc_complete _ _ _ _ (Pf_Miscs.result_misc _ _ _ _ E _ _ _ Hi N)).
    - constructor. }
  apply (proj1 (Forall_forall _ _) C) in Hx. destruct Hx as [Hx|[Hx|Hx]]; [left; exact Hx|right; left; exact Hx|told; exact (Hx _ V)].
Qed.
