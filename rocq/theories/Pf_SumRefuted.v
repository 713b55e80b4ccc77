(** Reports for which the weather summary shows something else than they say. *)
From Coq Require Import Lia ZArith NArith QArith List String.
From Verif Require Import Prim Float Values Weather Groups1 Groups2 Groups3 Groups4 Parser Summary.
From Verif Require Import SpecReal SpecUnits SpecSumNumbers SpecSummary.
Import ListNotations.
Local Open Scope string_scope.

Definition pow_one (x y : flt) : flt := f64_of_Z 1.
Lemma pow_one_tame : pow_tame pow_one.
Proof.
  split.
  { split; intros; eexists; (split; [vm_compute; reflexivity|]); (split; [vm_compute; reflexivity|]); split; vm_compute; discriminate. }
  intros y y' c c' b b' _ _ _ _ _ _ _ B B'.
  change (pow_one _ y) with (f64_of_Z 1) in B. change (pow_one _ y') with (f64_of_Z 1) in B'. rewrite B in B'. injection B' as <-.
  vm_compute in B. injection B as <-. vm_compute. discriminate.
Qed.
Lemma usable_is : forall sgn report type gs, usable sgn report type gs ->
  match parse sgn report default_groupLimit with Ok r => gs = map gi_group (pr_groups r) | Bad _ => False end.
Proof. intros sgn report type gs (r & E & _ & _ & -> & _). rewrite E. reflexivity. Qed.
Lemma no_report : forall sgn type, unusable sgn "" type.
Proof. intros sgn type gs U. destruct U as (r & E & _ & X & _). vm_compute in E. injection E as <-. discriminate. Qed.

Definition taf_shear := "TAF ZZZZ 171100Z 1712/1812 05010KT 9999 SCT030 WS020/18065KT=".
Definition groups_of (report : string) : list Group :=
  match parse true report default_groupLimit with Ok r => map gi_group (pr_groups r) | Bad _ => [] end.
Lemma shear_usable : usable true taf_shear RT_TAF (groups_of taf_shear).
Proof. eexists. split; [vm_compute; reflexivity|]. split; [reflexivity|]. split; [reflexivity|]. split; [vm_compute; reflexivity|vm_compute; discriminate]. Qed.
Lemma shear_wind : forall g z before, In g (groups_of taf_shear) -> says_direction surface_wind before g z -> z = 50%Z.
Proof.
  intros g z before I (k & n & -> & S & E & ->). vm_compute in I.
  repeat (destruct I as [I|I]; [try discriminate I; injection I as <-|]); [..|contradiction].
  - vm_compute in E. injection E as <-. reflexivity.
  - vm_compute in S. intuition discriminate.
Qed.
Theorem wind_shear_shown : ~ forall pow sgn metar taf year month day i w gs,
  pow_tame pow -> getCurrentWeather pow sgn metar taf year month day i = Ok w ->
  unusable sgn metar RT_METAR -> usable sgn taf RT_TAF gs ->
  last_said (says_direction surface_wind) valueNotSpecified (before_trend 1 gs) (cw_windDirection w).
Proof.
  intros H. destruct (getCurrentWeather pow_one true "" taf_shear 2026 11 17 false) as [w|] eqn:E; [|vm_compute in E; discriminate E].
  specialize (H pow_one true "" taf_shear 2026%Z 11%Z 17%Z false w _ pow_one_tame E (no_report _ _) shear_usable).
  assert (D : cw_windDirection w = 180%Z) by (vm_compute in E; injection E as <-; reflexivity).
  clear E. rewrite D in H. change (before_trend 1 (groups_of taf_shear)) with (groups_of taf_shear) in H.
  destruct H as [[H _]|(before & g & after & G & S & _)]; [discriminate H|].
  apply shear_wind in S; [discriminate S|]. rewrite G. apply in_or_app. right. left. reflexivity.
Qed.

(** *** Symbols *)
Lemma all_one : forall bad p l, all_symbols bad [p] l -> ~ bad p -> symbols_of p l.
Proof. intros bad p l H N. inversion H; subst. inversion H5; subst. rewrite app_nil_r. auto. Qed.
Definition metar_pellets := "METAR ZZZZ 171530Z 18010KT 10SM -PL OVC010=".
Definition metar_funnel := "METAR ZZZZ 171530Z 18010KT 10SM VCFC OVC010=".
Lemma pellets_usable : usable true metar_pellets RT_METAR (groups_of metar_pellets).
Proof. eexists. split; [vm_compute; reflexivity|]. split; [reflexivity|]. split; [reflexivity|]. split; [vm_compute; reflexivity|vm_compute; discriminate]. Qed.
Lemma funnel_usable : usable true metar_funnel RT_METAR (groups_of metar_funnel).
Proof. eexists. split; [vm_compute; reflexivity|]. split; [reflexivity|]. split; [reflexivity|]. split; [vm_compute; reflexivity|vm_compute; discriminate]. Qed.
Definition all_symbols_right : Prop := forall pow sgn metar taf year month day i w gs,
  pow_tame pow -> getCurrentWeather pow sgn metar taf year month day i = Ok w -> usable sgn metar RT_METAR gs ->
  all_symbols none_bad (phenomena_in current_weather (before_trend 0 gs)) (cw_weather w).
Theorem pellets_shown : ~ all_symbols_right.
Proof.
  intros H. destruct (getCurrentWeather pow_one true metar_pellets "" 2026 11 17 false) as [w|] eqn:E; [|vm_compute in E; discriminate E].
  specialize (H pow_one true metar_pellets "" 2026%Z 11%Z 17%Z false w _ pow_one_tame E pellets_usable).
  assert (D : cw_weather w = [SW_ICE_PELLETS_SHOWERS_LIGHT]) by (vm_compute in E; injection E as <-; reflexivity). clear E. rewrite D in H.
  assert (P : exists p, phenomena_in current_weather (before_trend 0 (groups_of metar_pellets)) = [p]
    /\ Wp_qualifier p = Q_LIGHT /\ Wp_descriptor p = D_NONE /\ Wp_weather p = [W_ICE_PELLETS]).
  { eexists. split; [vm_compute; reflexivity|]. split; [vm_compute; reflexivity|]. split; vm_compute; reflexivity. }
  destruct P as (p & P & Pq & Pd & Pw). rewrite P in H. apply all_one in H; [|exact (fun x => x)].
  inversion H as [s Q M|l V T F|l V T F].
  - rewrite Pq in Q. discriminate Q.
  - rewrite Pq, Pd, Pw in F. inversion F as [|x y l1 l2 B]; subst. destruct B as [(_ & _ & _ & [B|B]) _]; discriminate B.
Qed.
Theorem funnel_shown : exists w,
  getCurrentWeather pow_one true metar_funnel "" 2026 11 17 false = Ok w
  /\ cw_weather w = [SW_PRECIPITATION_IN_VICINITY].
Proof.
  destruct (getCurrentWeather pow_one true metar_funnel "" 2026 11 17 false) as [w|] eqn:E; [|vm_compute in E; discriminate E].
  exists w. split; [reflexivity|]. vm_compute in E. injection E as <-. reflexivity.
Qed.

(** *** Sky *)
Definition metar_layers := "METAR ZZZZ 171530Z 18010KT 10SM OVC010 FEW040=".
Lemma layers_usable : usable true metar_layers RT_METAR (groups_of metar_layers).
Proof. eexists. split; [vm_compute; reflexivity|]. split; [reflexivity|]. split; [reflexivity|]. split; [vm_compute; reflexivity|vm_compute; discriminate]. Qed.
Definition metar_variable := "METAR ZZZZ 171530Z 18010KT 10SM RMK BKN014 V OVC=".
Lemma variable_usable : usable true metar_variable RT_METAR (groups_of metar_variable).
Proof. eexists. split; [vm_compute; reflexivity|]. split; [reflexivity|]. split; [reflexivity|]. split; [vm_compute; reflexivity|vm_compute; discriminate]. Qed.
Lemma too_clear : forall gs s k, greatest_sky gs s -> In (GCloud k) gs -> sky_of (cl_amnt k) = Some Sky_OVERCAST -> s = Sky_OVERCAST.
Proof.
  intros gs s k H I E. assert (S : says_sky (GCloud k) Sky_OVERCAST) by (left; exists k; auto).
  destruct H as [[_ N]|[_ L]]; [destruct (N _ _ I S)|]. specialize (L _ _ I S). unfold sky_le in L. destruct s; cbn in L; try reflexivity; lia.
Qed.
Theorem layers_shown : ~ forall pow sgn metar taf year month day i w gs,
  pow_tame pow -> getCurrentWeather pow sgn metar taf year month day i = Ok w -> usable sgn metar RT_METAR gs ->
  no_variable_amounts (before_trend 0 gs) -> greatest_sky (before_trend 0 gs) (cw_cloud w).
Proof.
  intros H. destruct (getCurrentWeather pow_one true metar_layers "" 2026 11 17 false) as [w|] eqn:E; [|vm_compute in E; discriminate E].
  specialize (H pow_one true metar_layers "" 2026%Z 11%Z 17%Z false w _ pow_one_tame E layers_usable).
  assert (D : cw_cloud w = Sky_MOSTLY_CLEAR) by (vm_compute in E; injection E as <-; reflexivity). clear E. rewrite D in H.
  assert (V : no_variable_amounts (before_trend 0 (groups_of metar_layers))).
  { intros k I J. vm_compute in I. repeat (destruct I as [I|I]; [try discriminate I; injection I as <-|]); [..|contradiction]; vm_compute in J; intuition discriminate. }
  specialize (H V). vm_compute before_trend in H.
  match type of H with greatest_sky ?l _ => match l with context [GCloud ?k] => assert (X := too_clear l _ k H) end end.
  discriminate X; [vm_compute; tauto|reflexivity].
Qed.
Theorem variable_shown : ~ forall pow sgn metar taf year month day i w gs,
  pow_tame pow -> getCurrentWeather pow sgn metar taf year month day i = Ok w -> usable sgn metar RT_METAR gs ->
  layers_in_order (before_trend 0 gs) -> greatest_sky (before_trend 0 gs) (cw_cloud w).
Proof.
  intros H. destruct (getCurrentWeather pow_one true metar_variable "" 2026 11 17 false) as [w|] eqn:E; [|vm_compute in E; discriminate E].
  specialize (H pow_one true metar_variable "" 2026%Z 11%Z 17%Z false w _ pow_one_tame E variable_usable).
  assert (D : cw_cloud w = Sky_MOSTLY_CLEAR) by (vm_compute in E; injection E as <-; reflexivity). clear E. rewrite D in H.
  assert (V : layers_in_order (before_trend 0 (groups_of metar_variable))).
  { assert (S : forall g b, In g (before_trend 0 (groups_of metar_variable)) -> says_sky g b -> b = Sky_OVERCAST).
    { intros g b I [(k & -> & X)|(k & -> & X & ->)]; vm_compute in I;
        repeat (destruct I as [I|I]; [try discriminate I; injection I as <-|]); try contradiction; vm_compute in X; [injection X as <-; reflexivity|discriminate..]. }
    intros l g m h r a b G A B. apply S in A, B; [subst; apply Z.le_refl|rewrite G; apply in_or_app; right; right; apply in_or_app; right; left; reflexivity|rewrite G; apply in_or_app; right; left; reflexivity]. }
  specialize (H V). vm_compute before_trend in H.
  match type of H with greatest_sky ?l _ => match l with context [GCloud ?k] => assert (X := too_clear l _ k H) end end.
  discriminate X; [vm_compute; tauto|reflexivity].
Qed.
