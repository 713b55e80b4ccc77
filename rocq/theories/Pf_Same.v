(** A refused word changes no value of a group. *)
From Coq Require Import Lia.
From Verif Require Import Prim Lib Regex Float Values Weather Groups1 Groups2 Groups3 Groups4 Parser.
From Verif Require Import SpecReach SpecAppend Pf_Ok Pf_Kinds Pf_Refuse Pf_Trend Pf_MinMax.
Local Open Scope string_scope.

Lemma minmax_state : forall k, Reachable (GMinMaxTemperature k) -> exists part ws, Pf_MinMax.state part ws k.
Proof.
  apply (reach_MinMaxTemperature (fun k => exists part ws, Pf_MinMax.state part ws k)).
  - intros s part md k H. exists part, [s]. exact (minmax_first _ _ _ _ H).
  - intros k s part' md k' a _ (part & ws & W) H. destruct (minmax_next part ws s md k k' a W H) as [[_ X]|[_ ->]]; eauto.
Qed.
Definition cloud_free (k : CloudGroup) : Prop :=
  match cl_inc k with ClI_NONE => True | _ => cl_rw k = None /\ cl_dir k = None end.
Lemma cloud_reach : forall k, Reachable (GCloud k) -> cloud_free k.
Proof.
  apply (reach_Cloud cloud_free).
  - intros s part md k H. unfold CloudGroup_parse, Cloud_parseCloudLayerOrVertVis, Cloud_parseVariableCloudLayer, or_else in H.
    peel H; repeat match goal with H : Ok (Some _) = Ok (Some _) |- _ => injection H; clear H; intros; subst end; cbn; auto.
    all: repeat match goal with H : _ = Ok (Some _) |- _ => progress peel H end;
      repeat match goal with H : Ok (Some _) = Ok (Some _) |- _ => injection H; clear H; intros; subst end; cbn; auto.
  - intros k s part md k' a _ IH H. unfold CloudGroup_append, Cloud_appendVariableCloudAmount, Cloud_appendCeiling, Cloud_appendRunwayOrCardinalDirection, Cloud_appendObscuration in H.
    unfold cloud_free in *. destruct (cl_inc k) eqn:I; peel H; cbn; rewrite ?I; auto; try tauto.
Qed.
Theorem refused_same : forall g s part md g', Reachable g -> Group_append g s part md = Ok (g', NOT_APPENDED) -> same_values g g'.
Proof.
  intros g s part md g' R A. apply appended_inv in A.
  destruct g, g'; try contradiction; cbn [appended_as] in A; cbn [same_values].
  - (* keyword *) unfold KeywordGroup_append in A. congruence.
  - unfold LocationGroup_append in A. congruence.
  - unfold ReportTimeGroup_append in A. congruence.
  - apply trend_refused in A. congruence.
  - (* wind *) unfold WindGroup_append, Wind_appendVariableSector, Wind_appendWindShift, Wind_appendPeakWind in A. peel A; reflexivity.
  - (* visibility *) unfold VisibilityGroup_append, try_append in A. cbv zeta in A. peel A; repeat split.
  - (* cloud *) pose proof (cloud_reach _ R) as F. unfold cloud_free in F.
    unfold CloudGroup_append, Cloud_appendVariableCloudAmount, Cloud_appendCeiling, Cloud_appendRunwayOrCardinalDirection, Cloud_appendObscuration in A.
    destruct g as [tp am h mx cv rw dir ct inc]. cbn [cl_inc cl_rw cl_dir cl_tp cl_amnt cl_h cl_maxHt cl_conv cl_cldTp] in *.
    destruct inc; peel A; repeat match goal with H : _ /\ _ |- _ => destruct H end; subst; cbn; repeat split; auto;
      match goal with |- None = ?d => destruct d; [discriminate|reflexivity] | _ => idtac end.
    all: destruct (Direction_fromCardinalString s false false); [discriminate|reflexivity].
  - unfold WeatherGroup_append in A. cbv zeta in A. peel A; reflexivity.
  - unfold TemperatureGroup_append in A. peel A; reflexivity.
  - unfold PressureGroup_append in A. peel A; reflexivity.
  - unfold RunwayStateGroup_append in A. peel A; reflexivity.
  - unfold SeaSurfaceGroup_append in A. peel A; reflexivity.
  - destruct (minmax_state _ R) as (p & ws & W). destruct (minmax_next p ws s md _ _ _ W A) as [[X _]|[_ ->]]; [discriminate X|reflexivity].
  - unfold PrecipitationGroup_append in A. peel A; reflexivity.
  - unfold LayerForecastGroup_append in A. peel A; reflexivity.
  - unfold PressureTendencyGroup_append in A. peel A; reflexivity.
  - unfold CloudTypesGroup_append in A. peel A; reflexivity.
  - unfold LowMidHighCloudGroup_append in A. peel A; reflexivity.
  - unfold LightningGroup_append in A. peel A; reflexivity.
  - unfold VicinityGroup_append in A. cbv zeta in A. peel A; repeat split.
  - unfold MiscGroup_append in A. cbv zeta in A. peel A; reflexivity.
  - destruct g, g0; reflexivity.
Qed.
(** Whether the group is valid changes for visibility and vicinity groups only, from invalid. *)
Theorem refused_valid : forall g s part md g', Reachable g -> Group_append g s part md = Ok (g', NOT_APPENDED) ->
  match g with GVisibility _ | GVicinity _ => True | _ => Group_isValid g' = Group_isValid g end.
Proof.
  intros g s part md g' R A. pose proof (refused_same _ _ _ _ _ R A) as S. apply appended_inv in A.
  destruct g, g'; try contradiction; cbn [same_values] in S; try exact I; try (rewrite S; reflexivity).
  destruct g, g0. cbn in *. unfold CloudGroup_isValid. cbn. decompose [and] S. subst. reflexivity.
Qed.
Definition got (o : res (Group * AppendResult)) : Group := match o with Ok (g, _) => g | _ => GUnknown mkUnknown end.
Definition seen_vis : Group := Eval vm_compute in
  match alternative GVisibility VisibilityGroup_parse "VIS" RP_RMK md_default with Ok (Some g) => g | _ => GUnknown mkUnknown end.
Definition seen_range : Group := Eval vm_compute in got (Group_append seen_vis "1/2V1" RP_RMK md_default).
Definition seen_end : Group := Eval vm_compute in got (Group_append seen_range "X" RP_RMK md_default).
Lemma refusal_validates : exists g g', Reachable g /\ Group_append g "X" RP_RMK md_default = Ok (g', NOT_APPENDED)
  /\ Group_isValid g = Ok false /\ Group_isValid g' = Ok true.
Proof.
  exists seen_range, seen_end.
  assert (A : alternative GVisibility VisibilityGroup_parse "VIS" RP_RMK md_default = Ok (Some seen_vis)) by (vm_compute; reflexivity).
  assert (B : Group_append seen_vis "1/2V1" RP_RMK md_default = Ok (seen_range, APPENDED)) by (vm_compute; reflexivity).
  split; [|repeat split; vm_compute; reflexivity].
  refine (Reach_append seen_vis _ _ _ _ _ _ B). refine (Reach_parse _ _ _ _ _ _ A). cbn [alternatives In]. tauto.
Qed.
