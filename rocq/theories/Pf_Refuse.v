(** What a group that refuses a word looks like. *)
From Coq Require Import Lia.
From Verif Require Import Prim Lib Regex Float Values Weather Groups1 Groups2 Groups3 Groups4 Parser.
From Verif Require Import SpecReach SpecAppend Pf_Ok Pf_Kinds Pf_Decode.
Local Open Scope string_scope.

Ltac peel H := repeat match type of H with
  | Ok (_, _) = Ok (_, _) => injection H; clear H; intros; subst
  | bind ?m _ = Ok _ => let x := fresh "x" in let E := fresh "E" in apply bind_ok in H; destruct H as (x & E & H); cbv beta iota zeta in H
  | (if ?b then _ else _) = Ok _ => let E := fresh "E" in destruct b eqn:E
  | (match ?o with _ => _ end) = Ok _ => let E := fresh "E" in destruct o eqn:E
  end; try discriminate.

Lemma temperature_waits : forall k, Reachable (GTemperature k) -> tg_isIncomplete k = true -> tg_tp k = Tg_T_MISG \/ tg_tp k = Tg_TD_MISG.
Proof.
  apply (reach_Temperature (fun k => tg_isIncomplete k = true -> tg_tp k = Tg_T_MISG \/ tg_tp k = Tg_TD_MISG)).
  - intros s part md k H. unfold TemperatureGroup_parse in H. peel H;
      repeat match goal with H : Ok (Some _) = Ok (Some _) |- _ => injection H; clear H; intros; subst end; cbn in *; try discriminate; auto.
  - intros k s part md k' a _ IH H. unfold TemperatureGroup_append in H. peel H; cbn in *; try discriminate; auto.
Qed.
Lemma pressure_waits : forall k, Reachable (GPressure k) -> pg_isIncomplete k = true -> pg_t k = Pg_PRES_MISG.
Proof.
  apply (reach_Pressure (fun k => pg_isIncomplete k = true -> pg_t k = Pg_PRES_MISG)).
  - intros s part md k H. unfold PressureGroup_parse, or_else in H. peel H;
      repeat match goal with H : Ok (Some _) = Ok (Some _) |- _ => injection H; clear H; intros; subst end; cbn in *; try discriminate; auto.
    all: repeat match goal with H : bind _ _ = Ok (Some _) |- _ => apply bind_ok in H; destruct H as ([?|] & _ & H); [|discriminate H]; injection H as <- end; cbn in *; discriminate.
  - intros k s part md k' a _ IH H. unfold PressureGroup_append in H. peel H; cbn in *; try discriminate; auto.
Qed.
Lemma precipitation_waits : forall k, Reachable (GPrecipitation k) -> pc_isIncomplete k = true -> pc_type k = Pc_PCPN_MISG \/ pc_type k = Pc_ICG_MISG.
Proof.
  apply (reach_Precipitation (fun k => pc_isIncomplete k = true -> pc_type k = Pc_PCPN_MISG \/ pc_type k = Pc_ICG_MISG)).
  - intros s part md k H. unfold PrecipitationGroup_parse in H. peel H;
      repeat match goal with H : Ok (Some _) = Ok (Some _) |- _ => injection H; clear H; intros; subst end; cbn in *; try discriminate; auto.
  - intros k s part md k' a _ IH H. unfold PrecipitationGroup_append in H. peel H; cbn in *; try discriminate; auto.
Qed.
Lemma minmax_waits : forall k, Reachable (GMinMaxTemperature k) -> mm_isIncomplete k = true -> mm_t k = Mm_FORECAST.
Proof.
  apply (reach_MinMaxTemperature (fun k => mm_isIncomplete k = true -> mm_t k = Mm_FORECAST)).
  - intros s part md k H. unfold MinMaxTemperatureGroup_parse, or_else, MinMax_fromForecast, MinMax_from6hourly, MinMax_from24hourly in H. peel H;
      repeat match goal with H : Ok (Some _) = Ok (Some _) |- _ => injection H; clear H; intros; subst end; cbn in *; try discriminate; auto.
    all: match goal with H : match _ with _ => _ end = Ok (Some _) |- _ => peel H end.
    all: repeat match goal with H : Ok (Some _) = Ok (Some _) |- _ => injection H; clear H; intros; subst end; cbn in *; try discriminate; auto.
  - intros k s part md k' a _ IH H. unfold MinMaxTemperatureGroup_append, MinMax_append6hourly, MinMax_appendForecast in H. peel H; cbn in *; try discriminate; auto.
  all: first [ match goal with |- context [if ?b then _ else _] => destruct b; reflexivity end
    | match goal with H : mm_isIncomplete _ = true |- _ => specialize (IH H); congruence end ].
Qed.

(** Groups that may stay incomplete *)
Definition may_stay (g : Group) : Prop :=
  match g with
  | GTrend k => tr_t k = Tr_PROB
  | GWind k => wi_inc k = WiI_NONE /\ wi_type k = Wi_WIND_SHIFT /\ wi_evTime k = None
  | GMinMaxTemperature k => mm_t k = Mm_FORECAST /\ mm_isIncomplete k = true
  | GPrecipitation k => pc_isIncomplete k = false /\ pc_type k = Pc_SNOW_INCREASING_RAPIDLY
      /\ Precipitation_isReported (pc_amount k) = false /\ Precipitation_isReported (pc_change k) = false
  | _ => False
  end.
Lemma refused : forall g s part md g', Reachable g -> is_fallback g = false ->
  Group_append g s part md = Ok (g', NOT_APPENDED) -> waiting g' = true -> may_stay g'.
Proof.
  intros g s part md g' R F A W. apply appended_inv in A.
  destruct g, g'; try contradiction; cbn [appended_as] in A; cbn [waiting] in W; try discriminate W.
  - (* trend *) cbn. destruct (tr_t g0); cbn in W; try discriminate; reflexivity.
  - (* wind *) unfold WindGroup_append, Wind_appendVariableSector, Wind_appendWindShift, Wind_appendPeakWind in A.
    peel A; cbn in *; repeat match goal with H : wi_inc _ = _ |- _ => rewrite H in W end; cbn in W;
      try (apply andb_prop in W; destruct W as [W1 W2]; apply internal_WiType_dec_bl in W1;
           match goal with |- context [wi_evTime ?k] => destruct (wi_evTime k); [discriminate W2|] end; cbn; auto).
  - (* visibility *) unfold VisibilityGroup_append, try_append in A. cbv zeta in A. peel A; cbn in W; try discriminate W.
    rewrite E in W. discriminate W.
  - (* cloud *) unfold CloudGroup_append, Cloud_appendVariableCloudAmount, Cloud_appendCeiling, Cloud_appendRunwayOrCardinalDirection, Cloud_appendObscuration in A.
    peel A; cbn in W; try discriminate W; rewrite E in W; discriminate W.
  - (* weather *) unfold WeatherGroup_append in A. cbv zeta in A. peel A; cbn in W; try discriminate W; rewrite E in W; discriminate W.
  - (* temperature *) unfold TemperatureGroup_append in A. peel A. destruct (temperature_waits _ R W) as [X|X]; rewrite W, X in E; discriminate E.
  - (* pressure *) unfold PressureGroup_append in A. peel A. pose proof (pressure_waits _ R W) as X; rewrite W, X in E; discriminate E.
  - (* min, max *) cbn. split; [|exact W].
    assert (R' : Reachable (GMinMaxTemperature g0)).
    { eapply Reach_append; [exact R|]. apply (appended_iff (GMinMaxTemperature g) s part md (GMinMaxTemperature g0) NOT_APPENDED). exact A. }
    exact (minmax_waits _ R' W).
  - (* precipitation *) assert (R' : Reachable (GPrecipitation g0)).
    { eapply Reach_append; [exact R|]. apply (appended_iff (GPrecipitation g) s part md (GPrecipitation g0) NOT_APPENDED). exact A. }
    pose proof (precipitation_waits _ R') as X. unfold PrecipitationGroup_append in A. cbn [may_stay].
    destruct (pc_isIncomplete g0) eqn:Ei.
    + exfalso. destruct (X eq_refl) as [Y|Y]; peel A; first [rewrite Y in E; discriminate E | match goal with H : negb (pc_isIncomplete _) = true |- _ => rewrite Ei in H; discriminate H end].
    + cbn in W. apply andb_prop in W. destruct W as [W W3]. apply andb_prop in W. destruct W as [W1 W2].
      apply internal_PcType_dec_bl in W1. apply Bool.negb_true_iff in W2. apply Bool.negb_true_iff in W3. auto.
  - (* lightning *) unfold LightningGroup_append in A. peel A; cbn in W; congruence.
  - (* vicinity *) unfold VicinityGroup_append in A. cbv zeta in A. peel A; cbn in W; try discriminate W; rewrite E in W; discriminate W.
  - (* misc *) unfold MiscGroup_append in A. cbv zeta in A. peel A; cbn in W; try discriminate W; rewrite E in W; discriminate W.
Qed.
