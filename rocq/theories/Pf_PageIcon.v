(** The icon of the web page of the summary (C85). *)
From Coq Require Import Lia ZArith NArith List String Bool.
Import ListNotations.
From Verif Require Import Prim Lib Float Format Values Weather Summary Page.
From Verif Require Import SpecFigures SpecExplain SpecSummary SpecPage.
From Verif Require Import Pf_ExShown Pf_Page Pf_PageLines Pf_PageText.
Local Open Scope string_scope.

Definition hasb (class : symbol_meaning -> bool) (l : list SumWeather) : bool := existsb (fun s => class (meaning s)) l.
Fixpoint codes (names : list string) : option (list Z) :=
  match names with
  | [] => Some []
  | n :: r => match enum_value weather_bindings n, codes r with Ok z, Some l => Some (z :: l) | _, _ => None end
  end.
Definition class_of (names : list string) (class : symbol_meaning -> bool) : bool :=
  match codes names with
  | Some zs => forallb (fun s => Bool.eqb (existsb (Z.eqb (sw_code s)) zs) (class (meaning s))) all_SumWeather
  | None => false
  end.
Lemma includes_codes : forall l names zs, codes names = Some zs -> includes_any l names = Ok (existsb (fun z => existsb (Z.eqb z) l) zs).
Proof.
  intros l names. induction names as [|n names IH]; intros zs E; cbn [codes] in E; [injection E as <-; reflexivity|].
  cbn [includes_any]. destruct (enum_value weather_bindings n) as [z|]; [|discriminate E]. destruct (codes names) as [r|]; [|discriminate E]. injection E as <-.
  cbn [bind existsb]. destruct (existsb (Z.eqb z) l); [reflexivity|]. exact (IH r eq_refl).
Qed.
Lemma includes_class : forall names class l, class_of names class = true -> includes_any (map sw_code l) names = Ok (hasb class l).
Proof.
  intros names class l C. unfold class_of in C. destruct (codes names) as [zs|] eqn:E; [|discriminate C]. rewrite (includes_codes _ _ _ E). f_equal.
  apply Bool.eq_iff_eq_true. unfold hasb. rewrite !existsb_exists. split.
  - intros (z & I & X). apply existsb_exists in X. destruct X as (y & J & X). apply Z.eqb_eq in X. subst y. apply in_map_iff in J. destruct J as (s & F & J). exists s. split; [exact J|].
    pose proof (proj1 (forallb_forall _ _) C s (all_symbols_listed s)) as Y. apply Bool.eqb_prop in Y. rewrite <- Y. apply existsb_exists. exists z. split; [exact I|]. subst z. apply Z.eqb_refl.
  - intros (s & I & X). pose proof (proj1 (forallb_forall _ _) C s (all_symbols_listed s)) as Y. apply Bool.eqb_prop in Y. rewrite X in Y. apply existsb_exists in Y.
    destruct Y as (z & J & Y). apply Z.eqb_eq in Y. subst z. exists (sw_code s). split; [exact J|]. apply existsb_exists. exists (sw_code s). split; [apply in_map; exact I|apply Z.eqb_refl].
Qed.
Definition either (a b : symbol_meaning -> bool) (m : symbol_meaning) : bool := a m || b m.
Lemma hasb_either : forall a b l, hasb (either a b) l = hasb a l || hasb b l.
Proof. intros a b l. unfold hasb, either. induction l as [|s l IH]; [reflexivity|]. cbn [existsb]. rewrite IH. destruct (a (meaning s)), (b (meaning s)); cbn; rewrite ?orb_true_r; reflexivity. Qed.
Lemma hasb_iff : forall class l, hasb class l = true <-> exists s, In s l /\ class (meaning s) = true.
Proof. intros class l. apply existsb_exists. Qed.

Lemma chosen_if : forall d (b : bool) (P : Prop) icon rules other, (b = true <-> P) -> chosen d rules other -> chosen d ((P, icon) :: rules) (if b then icon else other).
Proof. intros d [] P icon rules other E C; [apply chosen_here; apply E; reflexivity|apply chosen_later; [intros p; apply E in p; discriminate p|exact C]]. Qed.

Lemma and_iff : forall a b (P Q : Prop), (a = true <-> P) -> (b = true <-> Q) -> (a && b = true <-> P /\ Q).
Proof. intros a b P Q A B. rewrite andb_true_iff, A, B. reflexivity. Qed.
Lemma or_iff : forall a b (P Q : Prop), (a = true <-> P) -> (b = true <-> Q) -> (a || b = true <-> P \/ Q).
Proof. intros a b P Q A B. rewrite orb_true_iff, A, B. reflexivity. Qed.
Lemma sky_iff : forall a b, Sky_beq a b = true <-> a = b.
Proof. intros a b. split; [apply internal_Sky_dec_bl|apply internal_Sky_dec_lb]. Qed.

Lemma bind_ok : forall (A B : Type) (x : res A) (f : A -> res B) a, x = Ok a -> bind x f = f a.
Proof. intros A B x f a ->. reflexivity. Qed.
Ltac next E := rewrite (bind_ok _ _ _ _ _ E); cbv beta.
Ltac class w names c :=
  let E := fresh in assert (E : forall l, includes_any (map sw_code l) names = Ok (hasb c l)) by (intros; apply includes_class; vm_compute; reflexivity); next (E (cw_weather w)); clear E.
Theorem icon_chosen : forall imperial w, exists icon,
  makeWeatherIcon (adaptCurrentWeather w js_valueNotSpecified) imperial = Ok icon /\ chosen icon_unknown (icon_rules imperial w) icon.
Proof.
  intros imperial w. unfold makeWeatherIcon. cbv zeta.
  change (pw_weather (adaptCurrentWeather w js_valueNotSpecified)) with (map sw_code (cw_weather w)).
  change (pw_cloud (adaptCurrentWeather w js_valueNotSpecified)) with (sky_code (cw_cloud w)).
  change (pw_isStormClouds (adaptCurrentWeather w js_valueNotSpecified)) with (cw_isStormClouds w).
  change (pw_windSpeed (adaptCurrentWeather w js_valueNotSpecified)) with (nullIfNoValue (cw_windSpeed w) js_valueNotSpecified).
  change (pw_gustSpeed (adaptCurrentWeather w js_valueNotSpecified)) with (nullIfNoValue (cw_gustSpeed w) js_valueNotSpecified).
  assert (CC : cloud_any (sky_code (cw_cloud w)) ["MOSTLY_CLOUDY"; "OVERCAST"] = Ok (Sky_beq (cw_cloud w) Sky_MOSTLY_CLOUDY || Sky_beq (cw_cloud w) Sky_OVERCAST)) by (destruct (cw_cloud w); reflexivity).
  assert (CL : cloud_any (sky_code (cw_cloud w)) ["CLEAR"; "MOSTLY_CLEAR"] = Ok (Sky_beq (cw_cloud w) Sky_CLEAR || Sky_beq (cw_cloud w) Sky_MOSTLY_CLEAR)) by (destruct (cw_cloud w); reflexivity).
  assert (CM : cloud_any (sky_code (cw_cloud w)) ["MOSTLY_CLOUDY"] = Ok (Sky_beq (cw_cloud w) Sky_MOSTLY_CLOUDY)) by (destruct (cw_cloud w); reflexivity).
  assert (CO : cloud_any (sky_code (cw_cloud w)) ["OVERCAST"] = Ok (Sky_beq (cw_cloud w) Sky_OVERCAST)) by (destruct (cw_cloud w); reflexivity).
  next CC. clear CC.
  class w ["FOG"; "FOG_SHALLOW"; "FOG_PARTIAL"; "FOG_PATCHES"; "FOG_FREEZING"; "FOG_IN_VICINITY"] fog.
  class w ["SNOW_LIGHT"; "SNOW_MODERATE"; "SNOW_HEAVY"; "SNOW_SHOWERS_LIGHT"; "SNOW_SHOWERS_MODERATE"; "SNOW_SHOWERS_HEAVY"] snow.
  class w ["RAIN_LIGHT"; "RAIN_SHOWERS_LIGHT"] light_rain.
  class w ["RAIN_MODERATE"; "RAIN_HEAVY"; "RAIN_SHOWERS_MODERATE"; "RAIN_SHOWERS_HEAVY"] heavier_rain.
  assert (W : forall a b : bool, (if a then Ok true else if b then Ok true else includes_any (map sw_code (cw_weather w)) ["SQUALLS"]) = Ok (a || (b || hasb squalls (cw_weather w)))).
  { intros a b. rewrite (includes_class ["SQUALLS"] squalls) by (vm_compute; reflexivity). destruct a, b; reflexivity. }
  next (W (isWindy (nullIfNoValue (cw_windSpeed w) js_valueNotSpecified) imperial) (isWindy (nullIfNoValue (cw_gustSpeed w) js_valueNotSpecified) imperial)). clear W.
  next CL. next CM. next CO. clear CL CM CO.
  class w ["MIST"; "HAZE"] (either mist haze).
  class w ["SMOKE"] smoke.
  class w ["MIST"] mist.
  class w ["SAND"; "WIDESPREAD_DUST"; "ICE_CRYSTALS"] airborne.
  class w ["PRECIPITATION_IN_VICINITY"] precipitation_near.
  class w ["DRIFTING_DUST"; "DRIFTING_SAND"; "BLOWING_SAND"; "BLOWING_DUST"; "BLOWING_SPRAY"; "BLOWING_DUST_IN_VICINITY"; "BLOWING_SAND_IN_VICINITY"; "BLOWING_SNOW_IN_VICINITY"] drifting.
  class w ["DUST_WHIRLS_IN_VICINITY"; "DUST_WHIRLS"] whirls.
  class w ["DRIZZLE_LIGHT"; "DRIZZLE_MODERATE"; "DRIZZLE_HEAVY"] drizzle.
  class w ["BLOWING_SNOW"] blowing_snow.
  class w ["SANDSTORM"; "SANDSTORM_HEAVY"; "SANDSTORM_IN_VICINITY"; "DUSTSTORM"; "DUSTSTORM_HEAVY"; "DUSTSTORM_IN_VICINITY"] sand_or_dust_storm.
  class w ["HAIL"; "GRAUPEL"] hail.
  class w ["THUNDERSTORM_IN_VICINITY"] thunder_near.
  class w ["THUNDERSTORM"] thunder.
  class w ["DRIZZLE_FREEZING_LIGHT"; "DRIZZLE_FREEZING_MODERATE"; "DRIZZLE_FREEZING_HEAVY"; "RAIN_FREEZING_LIGHT"; "RAIN_FREEZING_MODERATE"; "RAIN_FREEZING_HEAVY"] freezing_precipitation.
  class w ["VOLCANIC_ASH"; "VOLCANIC_ASH_IN_VICINITY"] ash.
  class w ["FUNNEL_CLOUD"; "TORNADO"] funnel.
  eexists. split; [reflexivity|]. rewrite !hasb_either.
  assert (T : forall (A : Type) (t h l n : bool) (a b c x : A), (if t then (if h then a else if l then b else c) else (if n then c else x)) = if t && h then a else if t && l then b else if t || n then c else x)
    by (intros A [] [] [] [] a b c x; reflexivity).
  rewrite T. clear T.
  assert (S : forall (A : Type) (s m : bool) (a b x : A), (if s then (if m then a else b) else x) = if s && m then a else if s then b else x) by (intros A [] [] a b x; reflexivity).
  rewrite (S _ (hasb smoke (cw_weather w))). rewrite (S _ (_ || (_ || _))). clear S.
  pose proof (windy_iff imperial (cw_windSpeed w)) as W1. pose proof (windy_iff imperial (cw_gustSpeed w)) as W2.
  pose proof (hot_iff imperial w) as H1. pose proof (cold_iff imperial w) as H2.
  assert (WI := or_iff _ _ _ _ W1 (or_iff _ _ _ _ W2 (hasb_iff squalls (cw_weather w)))).
  rewrite (andb_comm (hasb heavier_rain (cw_weather w)) (hasb snow _)), (andb_comm (hasb light_rain (cw_weather w)) (hasb snow _)).
  unfold icon_rules. cbv zeta.
  repeat (apply chosen_if;
    [first [ apply hasb_iff | exact WI | exact H1 | exact H2 | apply sky_iff
           | repeat first [ exact WI | apply hasb_iff | apply sky_iff | reflexivity | apply and_iff | apply or_iff
                          ] ]|]).
  apply chosen_default.
Qed.

(** *** Consequences *)
Lemma chosen_fun : forall d rules a b, chosen d rules a -> chosen d rules b -> a = b.
Proof.
  intros d rules a b A. revert b. induction A as [|P i r p|P i r o n A IH]; intros b B; inversion B; subst; try reflexivity; try contradiction. apply IH. assumption.
Qed.
Definition same_rule (a b : Prop * string) : Prop := (fst a <-> fst b) /\ snd a = snd b.
Lemma chosen_same : forall d r r' a, Forall2 same_rule r r' -> chosen d r a -> chosen d r' a.
Proof.
  intros d r r' a F C. revert r' F. induction C as [|P i r p|P i r o n C IH]; intros r' F; inversion F as [|? [Q j] ? l' [E J] G]; subst; cbn [fst snd] in *; [apply chosen_default| |].
  - subst j. apply chosen_here. apply E. exact p.
  - subst j. apply chosen_later; [intros q; apply n; apply E; exact q|]. apply IH. exact G.
Qed.
Lemma has_same : forall l l' (class : symbol_meaning -> bool), (forall s : SumWeather, In s l <-> In s l') ->
  ((exists s, In s l /\ class (meaning s) = true) <-> (exists s, In s l' /\ class (meaning s) = true)).
Proof. intros l l' class E. split; intros (s & I & C); exists s; (split; [apply E; exact I|exact C]). Qed.
Theorem icon_order : forall imperial w w', same_but_order w w' ->
  makeWeatherIcon (adaptCurrentWeather w js_valueNotSpecified) imperial = makeWeatherIcon (adaptCurrentWeather w' js_valueNotSpecified) imperial.
Proof.
  intros imperial w w' (S & C & T & V & G & A & P). destruct (icon_chosen imperial w) as (i & -> & X). destruct (icon_chosen imperial w') as (j & -> & Y). f_equal.
  refine (chosen_fun _ _ _ _ (chosen_same _ _ _ _ _ X) Y). clear X Y i j.
  assert (H : hot imperial w <-> hot imperial w') by (unfold hot, felt; rewrite A, P; reflexivity).
  assert (K : cold imperial w <-> cold imperial w') by (unfold cold, felt; rewrite A, P; reflexivity).
  pose proof (fun class => has_same _ _ class S) as HS.
  unfold icon_rules. cbv zeta. rewrite C, T, V, G.
  repeat (constructor; [split; [cbn [fst]; rewrite ?HS, ?H, ?K; reflexivity|reflexivity]|]). constructor.
Qed.
Lemma chosen_none : forall d rules, Forall (fun r => snd r <> d) rules -> (chosen d rules d <-> Forall (fun r => ~ fst r) rules).
Proof.
  intros d rules F. induction F as [|[P i] rules N F IH]; [split; [constructor|intros _; apply chosen_default]|]. cbn [snd] in N. split.
  - intros C. inversion C; subst; [destruct (N eq_refl)|]. constructor; [assumption|]. apply IH. assumption.
  - intros G. inversion G; subst. apply chosen_later; [assumption|]. apply IH. assumption.
Qed.
Definition iconless (s : SumWeather) : bool :=
  negb (existsb (fun class => class (meaning s)) [funnel; ash; freezing_precipitation; thunder; thunder_near; hail; sand_or_dust_storm; snow; blowing_snow; heavier_rain; light_rain; drizzle; whirls; drifting; precipitation_near; airborne; smoke; fog; mist; haze; squalls]).
Lemma iconless_iff : forall s, iconless s = true <-> In s without_icon.
Proof. intros s. split; [destruct s; vm_compute; try discriminate; tauto|]. intros I. unfold without_icon in I. cbn [In] in I. repeat (destruct I as [<-|I]; [vm_compute; reflexivity|]). destruct I. Qed.
Ltac listed := repeat first [left; reflexivity | right].
Ltac refute Z := match goal with A : ~ _ |- False => apply A; first [exact Z | left; exact Z | right; exact Z | right; left; exact Z | right; right; exact Z | reflexivity | left; reflexivity | right; reflexivity] end.
Theorem icon_unknown_iff : forall imperial w,
  makeWeatherIcon (adaptCurrentWeather w js_valueNotSpecified) imperial = Ok icon_unknown
  <-> nothing_shown imperial w /\ forall s, In s (cw_weather w) -> In s without_icon.
Proof.
  intros imperial w. destruct (icon_chosen imperial w) as (i & -> & X).
  assert (E : Ok i = Ok icon_unknown <-> chosen icon_unknown (icon_rules imperial w) icon_unknown).
  { split; [intros E; apply ok_same in E; rewrite E in X; exact X|]. intros C. f_equal. exact (chosen_fun _ _ _ _ X C). }
  rewrite E. clear E X i. rewrite chosen_none by (unfold icon_rules; cbv zeta; repeat (constructor; [cbn [snd]; discriminate|]); constructor).
  split.
  - unfold icon_rules. cbv zeta. intros F.
    repeat match goal with F : Forall _ (_ :: _) |- _ => apply Forall_cons_iff in F; let A := fresh "A" in destruct F as [A F]; cbn [fst] in A end.
    split.
    + unfold nothing_shown. split; [|split; [|split; [assumption|split; [assumption|split; intros Z; refute Z]]]].
      * destruct (cw_cloud w) eqn:Z; [reflexivity|exfalso; refute Z..].
      * destruct (cw_isStormClouds w) eqn:Z; [exfalso; refute Z|reflexivity].
    + intros s I. apply iconless_iff. unfold iconless. apply negb_true_iff. apply Bool.not_true_iff_false. intros Z. apply existsb_exists in Z.
      destruct Z as (class & J & Z). assert (H : exists s, In s (cw_weather w) /\ class (meaning s) = true) by (exists s; auto).
      cbn [In] in J. repeat (destruct J as [<-|J]; [refute H|]). destruct J.
  - intros ((C & T & H & K & V & G) & I).
    assert (N : forall class, In class [funnel; ash; freezing_precipitation; thunder; thunder_near; hail; sand_or_dust_storm; snow; blowing_snow; heavier_rain; light_rain; drizzle; whirls; drifting; precipitation_near; airborne; smoke; fog; mist; haze; squalls] -> ~ exists s, In s (cw_weather w) /\ class (meaning s) = true).
    { intros class J (s & S & Z). apply I in S. apply iconless_iff in S. unfold iconless in S. apply negb_true_iff in S. apply Bool.not_true_iff_false in S. apply S.
      apply existsb_exists. exists class. split; assumption. }
    cbn [In] in N. unfold icon_rules. cbv zeta. rewrite C, T.
    let rec no X := first [ discriminate X | exact (V X) | exact (G X) | match type of X with _ \/ _ => destruct X as [X|X]; no X | _ /\ _ => let Y := fresh in destruct X as [X Y]; first [no X | no Y] | _ => revert X; apply N; listed end ] in
    repeat (constructor; [cbn [fst]; first [ apply N; listed | exact H | exact K | intros X; no X ]|]).
    constructor.
Qed.
