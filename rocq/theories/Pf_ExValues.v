(** The values of a report are written out (C65, C67). *)
From Coq Require Import Lia ZArith NArith.
From Verif Require Import Prim Lib Regex Float Values Weather Groups1 Groups2 Groups3 Groups4 Parser Summary Format Explain SpecExplain.
From Verif Require Import SpecWeather Pf_Ok Pf_Parsed Pf_Weather Pf_ExText Pf_ExDist.
Local Open Scope string_scope.

Lemma some_has : forall (A : Type) (o : option A), (exists x, o = Some x) -> has_value o = true.
Proof. intros A o (x & ->). reflexivity. Qed.

Lemma clean_runway : forall r, clean (explainRunway r).
Proof. intros r. unfold explainRunway. destruct (Runway_isAllRunways r); [cl|]. destruct (Runway_isMessageRepetition r); [cl|]. cl; [destruct (_ <? 10)%N; cl|destruct (rDesignator r); cl]. Qed.
Lemma clean_time : forall t, clean (explainMetafTime t).
Proof. intros t. unfold explainMetafTime. cl; [destruct (dayValue t); cl|destruct (_ <? 10)%N; cl|destruct (_ <? 10)%N; cl]. Qed.
Lemma clean_temperature : forall t, clean (explainTemperature t).
Proof.
  intros t. unfold explainTemperature. destruct (Temperature_temperature t) as [v|] eqn:E; [|cl].
  assert (R : Temperature_isReported t = true).
  { unfold Temperature_temperature in E. unfold Temperature_isReported. destruct (tempValue t); [reflexivity|discriminate E]. }
  cl; (apply clean_rounded; [apply some_has, temperature_reported; exact R|reflexivity]).
Qed.
Lemma clean_speed : forall s, clean (explainSpeed s).
Proof.
  intros s. unfold explainSpeed. destruct (speedValue s) as [v|] eqn:E; [|cl].
  assert (R : Speed_isReported s = true) by (unfold Speed_isReported; rewrite E; reflexivity).
  cl; (apply clean_rounded; [apply some_has, speed_reported; exact R|tm]).
Qed.
Lemma clean_int : forall x z, trunc_to_int x = Ok z -> clean (int_of_flt x).
Proof. intros x z H. unfold int_of_flt. rewrite H. cbn [bind]. exists (dec_Z z). split; [reflexivity|apply tame_Z]. Qed.
Lemma clean_miles : forall p, clean (explainMiles p).
Proof. intros [i f]. unfold explainMiles. cl. Qed.
Lemma clean_modifier : forall m, clean (explainDistModifier m).
Proof. intros []; cbn [explainDistModifier]; cl. Qed.
Lemma clean_otherUnits : forall d n, dist_fine d -> dist d = Some n -> clean (explainDistOtherUnits d).
Proof.
  intros d n F E. destruct (fine_converts d n METERS F E) as (x & z & X & Z). destruct (fine_converts d n FEET F E) as (y & w & Y & W).
  destruct (fine_miles d n F E) as (m & M).
  unfold explainDistOtherUnits. rewrite X, Y, M. cbn [bind]. cl; eauto using clean_int, clean_miles.
Qed.
Lemma clean_distance : forall d, dist_fine d -> clean (explainDistance d).
Proof.
  intros d F. unfold explainDistance. destruct (Distance_isReported d); cbn [negb]; [|cl].
  destruct (clean_modifier (distModifier d)) as (mo & -> & T). cbn [bind].
  destruct (Distance_isValue d) eqn:V; cbn [negb]; [|apply clean_put; exact T].
  unfold Distance_isValue in V. destruct (dist d) as [n|] eqn:E; [|discriminate V].
  destruct (DistUnit_beq (distUnit d) STATUTE_MILES).
  - destruct (fine_miles d n F E) as (m & ->). cbn [bind]. cl; [apply clean_miles|exact (clean_otherUnits d n F E)].
  - destruct (fine_converts d n (distUnit d) F E) as (x & z & -> & Z). cl; [exact (clean_int x z Z)|exact (clean_otherUnits d n F E)].
Qed.
Lemma clean_direction : forall d t, clean (explainDirection d t).
Proof.
  intros d t. unfold explainDirection. cbv zeta. destruct (dirType d) eqn:E; try (cl; fail).
  unfold Direction_degrees, Direction_isValue. rewrite E. cbn [DirType_beq orb negb]. cl.
Qed.
Lemma clean_pressure : forall p, clean (explainPressure p).
Proof.
  intros p. unfold explainPressure. destruct (pressureValue p) as [v|] eqn:E; [|cl].
  assert (R : Pressure_isReported p = true) by (unfold Pressure_isReported; rewrite E; reflexivity).
  cl; (apply clean_rounded; [apply some_has, pressure_reported; exact R|tm]).
Qed.
Lemma clean_precipitation : forall p, clean (explainPrecipitation p).
Proof.
  intros p. unfold explainPrecipitation. destruct (Precipitation_isReported p) eqn:R; cbn [negb]; [|cl].
  match goal with |- clean (if ?b then _ else _) => destruct b end; [cl|].
  cl; (apply clean_rounded; [apply some_has, precip_reported; exact R|tm]).
Qed.
Lemma clean_friction : forall f, clean (explainSurfaceFriction f).
Proof.
  intros f. unfold explainSurfaceFriction. destruct (sfType f) eqn:E; try (cl; fail).
  unfold SurfaceFriction_coefficient. rewrite E. cl.
Qed.
Lemma clean_wave : forall w, clean (explainWaveHeight w).
Proof.
  intros w. unfold explainWaveHeight. destruct (whType w); [cl|]. destruct (WaveHeight_isReported w) eqn:R; [|cl].
  cl; (apply clean_rounded; [apply some_has, wave_reported; exact R|tm]).
Qed.
Lemma clean_with_space : forall r, clean r -> clean (with_space r).
Proof.
  intros r (s & -> & T). unfold with_space. cbn [bind]. cl.
Qed.
Lemma clean_weathers : forall l p, Forall proper_w l -> clean (explainWeathers p l).
Proof.
  induction l as [|w l IH]; intros p F; cbn [explainWeathers]; [exact clean_nil|]. inversion F as [|a b P Q]; subst.
  assert (X : exists s, weatherPhenomenaWeatherToString w = Ok s /\ tame s = true) by (destruct w; try contradiction; (eexists; split; [reflexivity|vm_compute; reflexivity])).
  destruct X as (s & -> & T). cbn [bind]. cl; [|exact (IH _ Q)]. apply clean_put. repeat (destruct (_ && _)%bool; try reflexivity). exact T.
Qed.
Lemma clean_phenomena : forall p, wp_wf p -> clean (explainWeatherPhenomena p).
Proof.
  intros p (q & d & w & e & (Sq & Sd & Sw & Se) & Pq & Pd & Pw & Pe & _).
  unfold explainWeatherPhenomena. cbv zeta. destruct (sempty _); cbn [negb]; [|apply clean_put, tame_special].
  rewrite Sq, Sd, Sw, Se. cl.
  - apply clean_with_space. destruct q; try contradiction; (eexists; split; [reflexivity|vm_compute; reflexivity]).
  - apply clean_with_space. destruct d; try contradiction; (eexists; split; [reflexivity|vm_compute; reflexivity]).
  - exact (clean_weathers _ _ Pw).
  - destruct e; cl; destruct (wpTm p); cl; apply clean_time.
Qed.
Lemma clean_sector : forall l, clean (explainDirectionSector l).
Proof.
  intros l. unfold explainDirectionSector. generalize true. induction l as [|d l IH]; intros b; cbn [sector_loop]; cl. apply IH.
Qed.
Lemma clean_cloudType : forall c, dist_fine (ctHt c) -> clean (explainCloudType c).
Proof. intros c F. unfold explainCloudType. cl. exact (clean_distance _ F). Qed.
