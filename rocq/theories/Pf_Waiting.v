(** Proofs for C77 *)
From Coq Require Import List String Bool NArith Lia.
From Verif Require Import Prim Regex Float Values Weather Groups1 Groups2 Groups3 Groups4 Parser SpecWaiting.
Import ListNotations.
Local Open Scope string_scope.

Ltac wt H :=
  repeat (cbn [bind fst snd] in H;
    match type of H with
    | Ok _ = Ok _ => discriminate H
    | Bad _ = Ok _ => discriminate H
    | context [bind ?e _] => destruct e; cbn [bind] in H; try discriminate H
    | context [match ?e with _ => _ end] => destruct e; try discriminate H
    end).

Lemma wind_w : forall g s part md g', WindGroup_append g s part md = Ok (g', GROUP_INVALIDATED) -> WindGroup_isValid g = false.
Proof.
  intros g s part md g' H; unfold WindGroup_isValid; unfold WindGroup_append in H.
  destruct (wi_inc g); try reflexivity; exfalso.
  destruct (wi_type g); unfold Wind_appendVariableSector, Wind_appendWindShift in H; wt H.
Qed.
Lemma try_append_w {G} : forall (e : res (option G)) k g', try_append e k = Ok (g', GROUP_INVALIDATED) -> k = Ok (g', GROUP_INVALIDATED).
Proof. intros e k g' H; unfold try_append in H; destruct e as [[x|]|]; cbn [bind] in H; try discriminate H; exact H. Qed.
Lemma vis_w : forall g s part md g', VisibilityGroup_append g s part md = Ok (g', GROUP_INVALIDATED) -> VisibilityGroup_isValid g = false.
Proof.
  intros g s part md g' H; unfold VisibilityGroup_isValid; unfold VisibilityGroup_append in H.
  destruct (vi_inc g) eqn:E; cbn [ViInc_beq]; try (rewrite andb_false_r; reflexivity); discriminate H.
Qed.
Lemma weather_w : forall g s part md g', WeatherGroup_append g s part md = Ok (g', GROUP_INVALIDATED) -> WeatherGroup_isValid g = Ok false.
Proof.
  intros g s part md g' H; unfold WeatherGroup_isValid; unfold WeatherGroup_append in H.
  destruct (wx_inc g); try reflexivity; exfalso; wt H.
Qed.
Lemma temp_w : forall g s part md g', TemperatureGroup_append g s part md = Ok (g', GROUP_INVALIDATED) -> TemperatureGroup_isValid g = false.
Proof.
  intros g s part md g' H; unfold TemperatureGroup_isValid; unfold TemperatureGroup_append in H.
  destruct (tg_isIncomplete g); [reflexivity|discriminate H].
Qed.
Lemma pres_w : forall g s part md g', PressureGroup_append g s part md = Ok (g', GROUP_INVALIDATED) -> PressureGroup_isValid g = false.
Proof.
  intros g s part md g' H; unfold PressureGroup_isValid; unfold PressureGroup_append in H.
  destruct (pg_isIncomplete g); [reflexivity|discriminate H].
Qed.
Lemma precip_w : forall g s part md g', PrecipitationGroup_append g s part md = Ok (g', GROUP_INVALIDATED) -> PrecipitationGroup_isValid g = false.
Proof.
  intros g s part md g' H; unfold PrecipitationGroup_isValid; unfold PrecipitationGroup_append in H.
  destruct (pc_isIncomplete g); [reflexivity|exfalso; wt H].
Qed.
Lemma vicinity_w : forall g s part md g', VicinityGroup_append g s part md = Ok (g', GROUP_INVALIDATED) -> VicinityGroup_isValid g = false.
Proof.
  intros g s part md g' H; unfold VicinityGroup_isValid; unfold VicinityGroup_append in H.
  destruct (vc_inc g); try reflexivity; exfalso; wt H.
Qed.
Lemma misc_w : forall g s part md g', MiscGroup_append g s part md = Ok (g', GROUP_INVALIDATED) -> MiscGroup_isValid g = false.
Proof.
  intros g s part md g' H; unfold MiscGroup_isValid; unfold MiscGroup_append in H.
  destruct (ms_inc g); try reflexivity; exfalso; wt H.
Qed.
Lemma wrap_w {G} (c : G -> Group) : forall e x, wrap c e = Ok (x, GROUP_INVALIDATED) -> exists y, e = Ok (y, GROUP_INVALIDATED).
Proof. intros [[y a]|e] x H; unfold wrap in H; cbn [bind] in H; [|discriminate H]. injection H as _ ->; eauto. Qed.

Lemma waiting_invalid : forall g s part md g', Group_append g s part md = Ok (g', GROUP_INVALIDATED) ->
  clouds_or_lightning g = false -> Group_isValid g = Ok false.
Proof.
  intros g s part md g' H K; destruct g; cbn [Group_append] in H; cbn [Group_isValid]; try discriminate K;
    apply wrap_w in H; destruct H as [y H];
    try (apply f_equal; first [eapply wind_w, H|eapply vis_w, H|eapply temp_w, H|eapply pres_w, H|eapply precip_w, H|eapply vicinity_w, H|eapply misc_w, H]);
    try (eapply weather_w, H); exfalso;
    unfold KeywordGroup_append, LocationGroup_append, ReportTimeGroup_append, TrendGroup_append, RunwayStateGroup_append,
      SeaSurfaceGroup_append, MinMaxTemperatureGroup_append, MinMax_append6hourly, MinMax_appendForecast, LayerForecastGroup_append, PressureTendencyGroup_append,
      CloudTypesGroup_append, LowMidHighCloudGroup_append, UnknownGroup_append in H; wt H.
Qed.

(** ** Clouds and lightning *)
Lemma waiting_refuted : waits_but_valid "CLD" /\ waits_but_valid "CIG" /\ waits_but_valid "OCNL".
Proof. repeat split; eexists _, _; repeat split; vm_compute; reflexivity. Qed.
