(** Weather, temperature, pressure, runway state, sea surface, minimum/maximum temperature and
    precipitation groups: parse and append return normally. *)
From Verif Require Import Prim Regex Float Values Weather Groups1 Groups2 Groups3 Lib Pf_Ok
  SpecDecimal Pf_Decimal SpecRegex Pf_Regex Pf_Caps Pf_OkValues SpecWeather Pf_Weather Pf_OkGroups1.
Local Open Scope string_scope.
Local Open Scope N_scope.

(** What every weather group made by the library looks like. *)
Definition wx_inv (g : WeatherGroup) : Prop :=
  Forall wp_wf (wx_w g) /\ (List.length (wx_w g) <= 20)%nat.
Definition some_ok {A : Type} (P : A -> Prop) (o : option A) : Prop :=
  forall a, o = Some a -> P a.

Lemma some_ok_none : forall (A : Type) (P : A -> Prop), some_ok P None.
Proof. intros A P a H; discriminate. Qed.
Lemma some_ok_some : forall (A : Type) (P : A -> Prop) a, P a -> some_ok P (Some a).
Proof. intros A P a H b E; inv E; exact H. Qed.

Lemma ok_addWeatherPhenomena : forall g w, wx_inv g -> wp_wf w ->
  ok (Weather_addWeatherPhenomena g w) (some_ok wx_inv).
Proof.
  intros g w [F L] W; unfold Weather_addWeatherPhenomena, array_push.
  destruct (Nat.leb wSize _) eqn:E; [apply some_ok_none|]; unfold wSize in E.
  apply Nat.leb_gt in E; rewrite (proj2 (Nat.ltb_lt _ _) E); cbn [bind ok].
  apply some_ok_some; split; cbn [wx_w].
  - apply Forall_app; auto.
  - rewrite app_length; cbn [List.length]; lia.
Qed.
Lemma ok_addIgnoring : forall g w, wx_inv g -> wp_wf w -> ok (Weather_addIgnoring g w) wx_inv.
Proof.
  intros g w G W; unfold Weather_addIgnoring; apply ok_bind.
  eapply ok_mono; [apply ok_addWeatherPhenomena; assumption|].
  intros [g'|] H; cbn [ok]; auto.
Qed.
Lemma wx_inv_of : forall t i, wx_inv (Weather_of t i).
Proof. intros; split; cbn; [constructor|lia]. Qed.

Lemma ok_parseWeatherWithoutEvent : forall s p,
  ok (Weather_parseWeatherWithoutEvent s p) (some_ok wp_wf).
Proof.
  intros s p; unfold Weather_parseWeatherWithoutEvent.
  ok_step; [apply some_ok_none|].
  ok_step; [apply some_ok_some, wp_wf_notReported|].
  ok_step; [apply some_ok_some, wp_wf_notReported|].
  apply ok_bind; eapply ok_mono; [apply ok_Wp_fromString|].
  intros [w|] H; [|apply some_ok_none].
  ok_step; [apply some_ok_none|]; apply some_ok_some, H; reflexivity.
Qed.

Lemma ok_eventLoop : forall s t n i st ld prev r,
  (i + n = slen s)%nat -> (st <= i)%nat -> wp_wf prev -> wx_inv r ->
  ok (Weather_eventLoop s t n i st ld prev r)
     (some_ok (fun x => (fst (fst x) <= slen s)%nat /\ wp_wf (snd (fst x)) /\ wx_inv (snd x))).
Proof.
  induction n as [|n IH]; intros i st ld prev r Hi Hst Hp Hr; cbn [Weather_eventLoop].
  - apply some_ok_some; cbn; repeat split; try assumption; try apply Hr; lia.
  - apply ok_bind, ok_sget; [lia|]; intros c; cbv zeta.
    destruct (negb (is_digit c) && ld).
    + ok_step; [apply some_ok_none|].
      apply ok_bind, ok_substr; [lia|].
      apply ok_bind; eapply ok_mono; [apply ok_fromWeatherBeginEndString; exact Hp|].
      intros [w|] Hw; [|apply some_ok_none].
      apply ok_bind; eapply ok_mono; [apply ok_addIgnoring; [exact Hr | apply Hw; reflexivity]|].
      intros r' Hr'; apply IH; try assumption; try lia; apply Hw; reflexivity.
    + apply IH; try assumption; lia.
Qed.

Lemma ok_parseWeatherEvent : forall s t, ok (Weather_parseWeatherEvent s t) (some_ok wx_inv).
Proof.
  intros s t; unfold Weather_parseWeatherEvent.
  apply ok_bind; eapply ok_mono.
  { apply ok_eventLoop; [reflexivity|lia|exact wp_wf_default|apply wx_inv_of]. }
  intros [[[st prev] r]|] H; [|apply some_ok_none].
  destruct (H _ eq_refl) as (A & B & C); cbn [fst snd] in *.
  apply ok_bind, ok_substr_from; [lia|].
  apply ok_bind; eapply ok_mono; [apply ok_fromWeatherBeginEndString; exact B|].
  intros [w|] Hw; [|apply some_ok_none].
  apply ok_bind; eapply ok_mono; [apply ok_addIgnoring; [exact C | apply Hw; reflexivity]|].
  intros r' Hr'; apply some_ok_some; exact Hr'.
Qed.

Lemma ok_WeatherGroup_parse : forall s p md, ok (WeatherGroup_parse s p md) (some_ok wx_inv).
Proof.
  intros s p md; unfold WeatherGroup_parse; apply ok_or_else.
  eapply (ok_mono _ _ (some_ok wx_inv)).
  { ok_step; [|apply some_ok_none].
    ok_step; [apply some_ok_some, wx_inv_of|].
    apply ok_bind; eapply ok_mono; [apply ok_parseWeatherWithoutEvent|].
    intros [w|] H; [|apply some_ok_none].
    apply some_ok_some; split; cbn; [constructor; [apply H; reflexivity|constructor]|lia]. }
  intros [g|] H; [exact H|].
  ok_step; [|apply some_ok_none].
  do 4 (ok_step; [apply some_ok_some, wx_inv_of|]).
  ok_step; [apply ok_parseWeatherEvent | apply some_ok_none].
Qed.
Lemma ok_WeatherGroup_append : forall g s p md, wx_inv g ->
  ok (WeatherGroup_append g s p md) (fun r => wx_inv (fst r)).
Proof.
  intros g s p md G; unfold WeatherGroup_append; cbv zeta.
  destruct (wx_inc g); try (ok_step; cbn [ok fst]; exact G).
  ok_step; [exact G|].
  apply ok_bind; eapply ok_mono; [apply ok_parseWeatherWithoutEvent|].
  intros [w|] H; [|exact G].
  ok_step; [exact G|]; ok_step; [exact G|].
  apply ok_bind; eapply ok_mono; [apply ok_addWeatherPhenomena; [exact G | apply H; reflexivity]|].
  intros [g'|] H'; [apply H'; reflexivity | exact G].
Qed.
Lemma ok_WeatherGroup_isValid : forall g, wx_inv g -> ok (WeatherGroup_isValid g) (fun _ => True).
Proof.
  intros g [F _]; unfold WeatherGroup_isValid; ok_step; [exact I|].
  induction F as [|w l W F IH]; cbn [Weather_allValid]; [exact I|].
  apply ok_bind; eapply ok_mono; [apply wp_isValid_ok; exact W|].
  intros [] _; [exact IH | exact I].
Qed.

Lemma ok_TemperatureGroup_parse : forall s p md, ok (TemperatureGroup_parse s p md) (fun _ => True).
Proof. intros; unfold TemperatureGroup_parse; ok_auto. Qed.
Lemma ok_TemperatureGroup_append : forall g s p md,
  ok (TemperatureGroup_append g s p md) (fun _ => True).
Proof. intros; unfold TemperatureGroup_append; ok_auto. Qed.

Lemma ok_PressureGroup_parse : forall s p md, ok (PressureGroup_parse s p md) (fun _ => True).
Proof. intros; unfold PressureGroup_parse, or_else; ok_auto. Qed.
Lemma ok_PressureGroup_append : forall g s p md, ok (PressureGroup_append g s p md) (fun _ => True).
Proof. intros; unfold PressureGroup_append; ok_auto. Qed.

Lemma ok_RunwayState_depositsFromString : forall s,
  ok (RunwayState_depositsFromString s) (fun _ => True).
Proof. intros; unfold RunwayState_depositsFromString; ok_auto. Qed.
Lemma ok_RunwayState_extentFromString : forall s,
  ok (RunwayState_extentFromString s) (fun _ => True).
Proof. intros; unfold RunwayState_extentFromString; ok_auto. Qed.
#[global] Hint Resolve ok_RunwayState_depositsFromString ok_RunwayState_extentFromString : okdb.
Lemma ok_RunwayStateGroup_parse : forall s p md, ok (RunwayStateGroup_parse s p md) (fun _ => True).
Proof. intros; unfold RunwayStateGroup_parse; ok_auto. Qed.
Lemma ok_RunwayStateGroup_append : forall g s p md,
  ok (RunwayStateGroup_append g s p md) (fun _ => True).
Proof. intros; exact I. Qed.

Lemma ok_SeaSurfaceGroup_parse : forall s p md, ok (SeaSurfaceGroup_parse s p md) (fun _ => True).
Proof. intros; unfold SeaSurfaceGroup_parse; ok_auto. Qed.
Lemma ok_SeaSurfaceGroup_append : forall g s p md,
  ok (SeaSurfaceGroup_append g s p md) (fun _ => True).
Proof. intros; exact I. Qed.

(** An unlabelled forecast temperature waiting for the second one is always a reported value. *)
Definition mm_inv (g : MinMaxTemperatureGroup) : Prop :=
  mm_isIncomplete g = true -> tempValue (mm_minTemp g) <> None /\ tempValue (mm_maxTemp g) <> None.

Lemma temp_deref : forall t, tempValue t <> None -> ok (deref (Temperature_temperature t)) (fun _ => True).
Proof.
  intros t H; unfold Temperature_temperature; destruct (tempValue t); [exact I | contradiction].
Qed.

Lemma ok_MinMax_from6hourly : forall s, ok (MinMax_from6hourly s) (some_ok mm_inv).
Proof.
  intros s; unfold MinMax_from6hourly; ok_auto;
    first [exact (some_ok_none _ _) | refine (some_ok_some _ _ _ _); intros Hinc; discriminate Hinc].
Qed.
Lemma ok_MinMax_from24hourly : forall s, ok (MinMax_from24hourly s) (some_ok mm_inv).
Proof.
  intros s; unfold MinMax_from24hourly; ok_auto;
    first [exact (some_ok_none _ _) | refine (some_ok_some _ _ _ _); intros Hinc; discriminate Hinc].
Qed.
Lemma ok_MinMax_fromForecast : forall s, ok (MinMax_fromForecast s) (some_ok mm_inv).
Proof.
  intros s; unfold MinMax_fromForecast.
  destruct (regex_match rgx_forecastminmax s) as [m|] eqn:R; [|apply some_ok_none].
  assert (mstr m 2 <> "//") as N2.
  { intros E.
    assert (L : exists a, bodies rgx_forecastminmax 2 = [a] /\ cls_all (fun c => negb (Ascii.eqb c "/")) a = true).
    { eexists; split; [vm_compute; reflexivity | vm_compute; reflexivity]. }
    destruct L as (a & B & C).
    assert (M : must rgx_forecastminmax 2 = true) by (vm_compute; reflexivity).
    pose proof (mstr_must _ _ _ _ _ R M B) as L.
    pose proof (lang_cls_all _ _ _ L C) as A; rewrite E in A; discriminate. }
  apply ok_bind; eapply ok_mono; [apply ok_Temperature_fromString|].
  intros [t|] Ht; [|apply some_ok_none].
  apply ok_bind; eapply ok_mono; [apply ok_MetafTime_fromStringDDHH|].
  intros [tm|] _; [|apply some_ok_none]; cbv zeta.
  apply some_ok_some; unfold mm_inv; cbn [mm_isIncomplete mm_minTemp mm_maxTemp].
  intros H; rewrite H, !orb_true_r; split; apply Ht; auto.
Qed.
Lemma ok_MinMaxTemperatureGroup_parse : forall s p md,
  ok (MinMaxTemperatureGroup_parse s p md) (some_ok mm_inv).
Proof.
  intros s p md; unfold MinMaxTemperatureGroup_parse.
  ok_step; [apply ok_MinMax_fromForecast|].
  ok_step; [|apply some_ok_none].
  apply ok_or_else; eapply ok_mono; [apply ok_MinMax_from6hourly|].
  intros [g|] H; [exact H | apply ok_MinMax_from24hourly].
Qed.
Lemma ok_MinMaxTemperatureGroup_append : forall g s p md, mm_inv g ->
  ok (MinMaxTemperatureGroup_append g s p md) (fun r => mm_inv (fst r)).
Proof.
  intros g s p md G; unfold MinMaxTemperatureGroup_append; destruct (mm_t g); [| exact G |].
  - unfold MinMax_append6hourly; ok_step; [exact G|].
    apply ok_bind; eapply ok_mono; [apply ok_MinMax_from6hourly|].
    intros [n|] H; [|exact G]; specialize (H n eq_refl); cbv zeta.
    ok_step; [exact G|]; ok_step; [exact G|]; cbn [ok fst].
    unfold mm_inv in *; cbn [mm_isIncomplete mm_minTemp mm_maxTemp]; intros HI.
    destruct (G HI) as [A B].
    unfold Temperature_isReported.
    destruct (tempValue (mm_minTemp g)) eqn:T1; [|contradiction].
    destruct (tempValue (mm_maxTemp g)) eqn:T2; [|contradiction].
    cbn; rewrite T1, T2; split; discriminate.
  - unfold MinMax_appendForecast; ok_step; [exact G|].
    apply ok_bind; eapply ok_mono; [apply ok_MinMax_fromForecast|].
    intros [n|] H; [|exact G]; specialize (H n eq_refl); cbv zeta.
    ok_step; [exact G|]; b2p; apply eqb_prop in E0.
    destruct (mm_isIncomplete g) eqn:EI; cbn [negb].
    + apply ok_bind.
      eapply (ok_mono _ _ (fun _ => True)).
      { ok_step; [exact I|].
        apply ok_bind; eapply ok_mono; [apply temp_deref, G, EI|]; intros a _.
        apply ok_bind; eapply ok_mono; [apply temp_deref, H; congruence|]; intros; exact I. }
      intros sw _; cbn [ok fst]; destruct sw; intros X; discriminate X.
    + repeat match goal with |- ok (if ?b then _ else _) _ => destruct b end; cbn [ok fst];
        first [exact G | intros X; discriminate X].
Qed.

Lemma ok_PrecipitationGroup_parse : forall s p md,
  ok (PrecipitationGroup_parse s p md) (fun _ => True).
Proof. intros; unfold PrecipitationGroup_parse; ok_auto. Qed.
Lemma ok_PrecipitationGroup_append : forall g s p md,
  ok (PrecipitationGroup_append g s p md) (fun _ => True).
Proof. intros; unfold PrecipitationGroup_append; ok_auto. Qed.
