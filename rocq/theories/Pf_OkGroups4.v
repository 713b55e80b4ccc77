(** Layer forecast, pressure tendency, cloud types, cloud layers, lightning, vicinity and
    miscellaneous groups: parse and append return normally. *)
From Verif Require Import Prim Regex Float Values Weather Groups1 Groups2 Groups3 Groups4 Lib Pf_Ok
  SpecDecimal Pf_Decimal SpecRegex Pf_Regex Pf_Caps Pf_OkValues SpecWeather Pf_Weather Pf_OkGroups1
  Pf_OkGroups3.
Local Open Scope string_scope.
Local Open Scope N_scope.

Lemma ok_LayerForecastGroup_parse : forall s p md,
  ok (LayerForecastGroup_parse s p md) (fun _ => True).
Proof.
  intros; unfold LayerForecastGroup_parse; ok_step; [exact I|]; ok_step; [|exact I].
  ok_step; [|exact I].
  apply ok_bind; eapply ok_mono; [apply ok_Distance_fromLayerString|].
  intros [h|] _; cbn [has_value negb andb deref bind]; ok_auto; discriminate.
Qed.
Lemma ok_LayerForecastGroup_append : forall g s p md,
  ok (LayerForecastGroup_append g s p md) (fun _ => True).
Proof. intros; exact I. Qed.

Lemma ok_PressureTendencyGroup_parse : forall s p md,
  ok (PressureTendencyGroup_parse s p md) (fun _ => True).
Proof. intros; unfold PressureTendencyGroup_parse; ok_auto. Qed.
Lemma ok_PressureTendencyGroup_append : forall g s p md,
  ok (PressureTendencyGroup_append g s p md) (fun _ => True).
Proof. intros; exact I. Qed.

(** A cloud types group always has between one and eight cloud types. *)
Definition cty_inv (g : CloudTypesGroup) : Prop := (1 <= List.length (cty_cldTp g) <= 8)%nat.

Lemma search_nonempty : forall r q p, Lang r p -> regex_search_all r (p ++ q) <> [].
Proof.
  intros r q p H; unfold regex_search_all; cbn [search_from].
  apply lang_captures in H; destruct H as [c H].
  apply (run_complete r p c q []) in H.
  destruct (run r (p ++ q) []) as [|sc l]; [contradiction | discriminate].
Qed.
Lemma cloudtypes_search_nonempty : forall s, is_match rgx_cloudtypes s = true ->
  regex_search_all rgx_cloudtypes_search s <> [].
Proof.
  intros s H; apply is_match_lang in H.
  change rgx_cloudtypes with (RSeq rgx_cloudtypes_search (RStar rgx_cloudtypes_search)) in H.
  inv H; apply search_nonempty; assumption.
Qed.
Lemma ok_CloudTypes_loop : forall ms l, (List.length l <= 8)%nat ->
  (ms = [] -> l <> []) -> ok (CloudTypes_loop ms l) (some_ok cty_inv).
Proof.
  induction ms as [|s ms IH]; intros l L H; cbn [CloudTypes_loop].
  - apply some_ok_some; unfold cty_inv; cbn [cty_cldTp].
    destruct l; [exfalso; apply H; reflexivity | cbn [List.length] in *; lia].
  - unfold cldTpMaxSize; destruct (Nat.leb_spec 8 (List.length l)) as [G|G].
    + apply some_ok_some; unfold cty_inv; cbn [cty_cldTp]; lia.
    + apply ok_bind; eapply ok_mono; [apply ok_CloudType_fromString|].
      intros [c|] _; [|exact (some_ok_none _ _)].
      unfold array_push; rewrite (proj2 (Nat.ltb_lt _ _)) by lia; cbn [bind].
      apply IH; [rewrite app_length; cbn [List.length]; lia|].
      intros _ E; apply app_eq_nil in E; destruct E; discriminate.
Qed.
Lemma ok_CloudTypesGroup_parse : forall s p md, ok (CloudTypesGroup_parse s p md) (some_ok cty_inv).
Proof.
  intros s p md; unfold CloudTypesGroup_parse; ok_step; [exact (some_ok_none _ _)|].
  apply ok_or_else, ok_bind; eapply ok_mono; [apply ok_CloudType_fromString|].
  intros [c|] _; cbn [ok].
  - apply some_ok_some; unfold cty_inv; cbn; lia.
  - destruct (is_match rgx_cloudtypes s) eqn:M; [|exact (some_ok_none _ _)].
    apply ok_CloudTypes_loop; [cbn; lia|].
    intros H; apply cloudtypes_search_nonempty in M; contradiction.
Qed.
Lemma ok_CloudTypesGroup_append : forall g s p md, cty_inv g ->
  ok (CloudTypesGroup_append g s p md) (fun r => cty_inv (fst r)).
Proof.
  intros g s p md G; unfold CloudTypesGroup_append; cbv zeta; unfold cldTpMaxSize.
  destruct (Nat.leb_spec 8 (List.length (cty_cldTp g))) as [L|L]; [exact G|].
  destruct (rev (cty_cldTp g)) as [|c l] eqn:R.
  - apply (f_equal (@List.length CloudType)) in R; rewrite rev_length in R; cbn in R.
    unfold cty_inv in G; lia.
  - ok_step; [exact G|].
    apply ok_bind; eapply ok_mono; [apply ok_CloudType_fromString|].
    intros [t|] _; [|exact G]; ok_step; [exact G|].
    unfold array_push; rewrite (proj2 (Nat.ltb_lt _ _)) by lia; cbn [bind ok fst].
    unfold cty_inv; cbn [cty_cldTp]; rewrite app_length; cbn [List.length]; lia.
Qed.

Lemma ok_LowMidHighCloudGroup_parse : forall s p md,
  ok (LowMidHighCloudGroup_parse s p md) (fun _ => True).
Proof. intros; unfold LowMidHighCloudGroup_parse; ok_auto. Qed.
Lemma ok_LowMidHighCloudGroup_append : forall g s p md,
  ok (LowMidHighCloudGroup_append g s p md) (fun _ => True).
Proof. intros; exact I. Qed.

Lemma ok_Lightning_typeLoop : forall s n i g, ok (Lightning_typeLoop s n i g) (fun _ => True).
Proof.
  induction n as [|n IH]; intros i g; cbn [Lightning_typeLoop]; [exact I|].
  destruct (Nat.ltb_spec i (slen s)); [|exact I].
  apply ok_bind, ok_substr; [lia | apply IH].
Qed.
#[global] Hint Resolve ok_Lightning_typeLoop : okdb.
Lemma ok_Lightning_fromLtgGroup : forall s, ok (Lightning_fromLtgGroup s) (fun _ => True).
Proof. intros; unfold Lightning_fromLtgGroup; ok_auto. Qed.
#[global] Hint Resolve ok_Lightning_fromLtgGroup : okdb.
Lemma ok_LightningGroup_parse : forall s p md, ok (LightningGroup_parse s p md) (fun _ => True).
Proof. intros; unfold LightningGroup_parse; ok_auto. Qed.
Lemma ok_LightningGroup_append : forall g s p md,
  ok (LightningGroup_append g s p md) (fun _ => True).
Proof. intros; unfold LightningGroup_append; ok_auto. Qed.

Lemma ok_VicinityGroup_parse : forall s p md, ok (VicinityGroup_parse s p md) (fun _ => True).
Proof. intros; unfold VicinityGroup_parse; ok_auto. Qed.
Lemma ok_VicinityGroup_append : forall g s p md, ok (VicinityGroup_append g s p md) (fun _ => True).
Proof. intros; unfold VicinityGroup_append, Vicinity_appendDistance; ok_auto. Qed.

(** A correction group carries a complete number between 1 and 26. *)
Definition ms_inv (g : MiscGroup) : Prop :=
  ms_type g = Ms_CORRECTED_WEATHER_OBSERVATION ->
  ms_inc g = MsI_NONE /\ exists k, (1 <= k <= 26)%Z /\ ms_data g = Some (f32_of_Z k).

Lemma correction_char : forall s m, regex_match rgx_correction s = Some m ->
  exists c, mstr m 1 = String c "" /\ 65 <= code c <= 90.
Proof.
  intros s m R.
  assert (L : Lang (RCls [("A"%char, "Z"%char)]) (mstr m 1)).
  { eapply mstr_must; [exact R| |]; vm_compute; reflexivity. }
  inversion L as [|rs c IC E1 E2| | | | | | | |]; subst; exists c; split; [reflexivity|].
  cbn [in_cls existsb] in IC; rewrite orb_false_r in IC; unfold in_range in IC.
  apply andb_prop in IC; destruct IC as [A B].
  apply N.leb_le in A; apply N.leb_le in B; split; assumption.
Qed.
Lemma colour_type : forall s c, Misc_parseColourCode s = Some c ->
  c <> Ms_CORRECTED_WEATHER_OBSERVATION.
Proof.
  intros s c H.
  refine (lookup_forall _ (fun c => c <> Ms_CORRECTED_WEATHER_OBSERVATION) _ _ _ H _).
  repeat constructor; discriminate.
Qed.

Lemma ok_MiscGroup_parse : forall s p md, ok (MiscGroup_parse s p md) (some_ok ms_inv).
Proof.
  intros s p md; unfold MiscGroup_parse; cbv zeta.
  apply ok_or_else; eapply (ok_mono _ _ (some_ok ms_inv)).
  { ok_step; [|exact (some_ok_none _ _)].
    destruct (Misc_parseColourCode s) as [c|] eqn:C; [|exact (some_ok_none _ _)].
    apply some_ok_some; intros T; apply colour_type in C; contradiction. }
  intros [g|] H; [exact H|]; clear H.
  apply ok_or_else; eapply (ok_mono _ _ (some_ok ms_inv)).
  { ok_step; [|exact (some_ok_none _ _)].
    destruct (regex_match rgx_issuer s) as [m|] eqn:R; [|exact (some_ok_none _ _)].
    apply ok_bind; eapply ok_mono; [stoi_capture R|]; intros n _.
    apply some_ok_some; intros T; cbn in T; destruct (seqb _ _) in T; discriminate. }
  intros [g|] H; [exact H|]; clear H.
  apply ok_or_else; eapply (ok_mono _ _ (some_ok ms_inv)).
  { ok_step; [|exact (some_ok_none _ _)].
    destruct (regex_match rgx_correction s) as [m|] eqn:R; [|exact (some_ok_none _ _)].
    destruct (correction_char _ _ R) as (c & -> & C); cbn [sget bind].
    apply some_ok_some; intros _; split; [reflexivity|].
    cbn [ms_data]; eexists; split; [|reflexivity].
    change (String.get 0 (String c "")) with (Some c); cbn beta iota; lia. }
  intros [g|] H; [exact H|]; clear H.
  ok_step; [|exact (some_ok_none _ _)].
  ok_step; [apply some_ok_some; intros T; discriminate T|].
  ok_step; [apply some_ok_some; intros T; discriminate T|].
  destruct (regex_match rgx_sunshine s) as [m|] eqn:R.
  - apply ok_bind; eapply ok_mono; [stoi_capture R|]; intros n _.
    apply some_ok_some; intros T; discriminate T.
  - ok_step; [apply some_ok_some; intros T; discriminate T | exact (some_ok_none _ _)].
Qed.

Lemma ms_inv_inc : forall t d i, t <> Ms_CORRECTED_WEATHER_OBSERVATION -> ms_inv (mkMisc t d i).
Proof. intros t d i H E; contradiction. Qed.
Lemma ok_MiscGroup_append : forall g s p md, ms_inv g ->
  ok (MiscGroup_append g s p md) (fun r => ms_inv (fst r)).
Proof.
  intros g s p md G; unfold MiscGroup_append; cbv zeta.
  destruct (ms_inc g) eqn:EI; [exact G|..];
    (assert (ms_type g <> Ms_CORRECTED_WEATHER_OBSERVATION) as N
      by (intros T; destruct (G T) as [A _]; congruence));
    unfold Misc_appendHailstoneFraction, Misc_appendDensityAltitude; cbv zeta;
    ok_auto; cbn [fst]; try exact G; try (apply ms_inv_inc; exact N);
    repeat match goal with
    | H : (if ?b then _ else _) = Some _ |- _ => destruct b; [inv H | ]
    | H : None = Some _ |- _ => discriminate H
    | H : Some _ = Some _ |- _ => inv H
    end; try exact G; try (apply ms_inv_inc; exact N).
Qed.

Lemma correction_number : forall k, (1 <= k <= 26)%Z ->
  ok (trunc_to_uint (f32_of_Z k)) (fun n => n = Z.to_N k).
Proof.
  intros k H.
  assert (forallb (fun i => match trunc_to_uint (f32_of_Z (Z.of_nat i)) with
     Ok n => n =? Z.to_N (Z.of_nat i) | Bad _ => false end) (seq 1 26) = true) as T
    by (vm_compute; reflexivity).
  rewrite forallb_forall in T; specialize (T (Z.to_nat k)).
  rewrite Z2Nat.id in T by lia.
  specialize (T ltac:(apply in_seq; lia)).
  destruct (trunc_to_uint (f32_of_Z k)); [apply N.eqb_eq in T; exact T | discriminate].
Qed.

Lemma ok_UnknownGroup_append : forall g s p md, ok (UnknownGroup_append g s p md) (fun _ => True).
Proof. intros; exact I. Qed.
