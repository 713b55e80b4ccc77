(** What the groups obtained by parsing and appending come from, kind by kind. *)
From Verif Require Import Prim Regex Float Values Weather Groups1 Groups2 Groups3 Groups4 Parser Lib
  Pf_Ok SpecReach Pf_Total.
Local Open Scope string_scope.

(** [g] is what its own kind's parser makes of the text *)
Definition parsed_as (g : Group) (s : string) (part : ReportPart) (md : ReportMetadata) : Prop :=
  match g with
  | GKeyword k => KeywordGroup_parse s part md = Ok (Some k)
  | GLocation k => LocationGroup_parse s part md = Ok (Some k)
  | GReportTime k => ReportTimeGroup_parse s part md = Ok (Some k)
  | GTrend k => TrendGroup_parse s part md = Ok (Some k)
  | GWind k => WindGroup_parse s part md = Ok (Some k)
  | GVisibility k => VisibilityGroup_parse s part md = Ok (Some k)
  | GCloud k => CloudGroup_parse s part md = Ok (Some k)
  | GWeather k => WeatherGroup_parse s part md = Ok (Some k)
  | GTemperature k => TemperatureGroup_parse s part md = Ok (Some k)
  | GPressure k => PressureGroup_parse s part md = Ok (Some k)
  | GRunwayState k => RunwayStateGroup_parse s part md = Ok (Some k)
  | GSeaSurface k => SeaSurfaceGroup_parse s part md = Ok (Some k)
  | GMinMaxTemperature k => MinMaxTemperatureGroup_parse s part md = Ok (Some k)
  | GPrecipitation k => PrecipitationGroup_parse s part md = Ok (Some k)
  | GLayerForecast k => LayerForecastGroup_parse s part md = Ok (Some k)
  | GPressureTendency k => PressureTendencyGroup_parse s part md = Ok (Some k)
  | GCloudTypes k => CloudTypesGroup_parse s part md = Ok (Some k)
  | GLowMidHighCloud k => LowMidHighCloudGroup_parse s part md = Ok (Some k)
  | GLightning k => LightningGroup_parse s part md = Ok (Some k)
  | GVicinity k => VicinityGroup_parse s part md = Ok (Some k)
  | GMisc k => MiscGroup_parse s part md = Ok (Some k)
  | GUnknown _ => False
  end.
(** [g'] is [g] after its own kind's append *)
Definition appended_as (g : Group) (s : string) (part : ReportPart) (md : ReportMetadata)
  (g' : Group) (a : AppendResult) : Prop :=
  match g, g' with
  | GKeyword k, GKeyword k' => KeywordGroup_append k s part md = Ok (k', a)
  | GLocation k, GLocation k' => LocationGroup_append k s part md = Ok (k', a)
  | GReportTime k, GReportTime k' => ReportTimeGroup_append k s part md = Ok (k', a)
  | GTrend k, GTrend k' => TrendGroup_append k s part md = Ok (k', a)
  | GWind k, GWind k' => WindGroup_append k s part md = Ok (k', a)
  | GVisibility k, GVisibility k' => VisibilityGroup_append k s part md = Ok (k', a)
  | GCloud k, GCloud k' => CloudGroup_append k s part md = Ok (k', a)
  | GWeather k, GWeather k' => WeatherGroup_append k s part md = Ok (k', a)
  | GTemperature k, GTemperature k' => TemperatureGroup_append k s part md = Ok (k', a)
  | GPressure k, GPressure k' => PressureGroup_append k s part md = Ok (k', a)
  | GRunwayState k, GRunwayState k' => RunwayStateGroup_append k s part md = Ok (k', a)
  | GSeaSurface k, GSeaSurface k' => SeaSurfaceGroup_append k s part md = Ok (k', a)
  | GMinMaxTemperature k, GMinMaxTemperature k' => MinMaxTemperatureGroup_append k s part md = Ok (k', a)
  | GPrecipitation k, GPrecipitation k' => PrecipitationGroup_append k s part md = Ok (k', a)
  | GLayerForecast k, GLayerForecast k' => LayerForecastGroup_append k s part md = Ok (k', a)
  | GPressureTendency k, GPressureTendency k' => PressureTendencyGroup_append k s part md = Ok (k', a)
  | GCloudTypes k, GCloudTypes k' => CloudTypesGroup_append k s part md = Ok (k', a)
  | GLowMidHighCloud k, GLowMidHighCloud k' => LowMidHighCloudGroup_append k s part md = Ok (k', a)
  | GLightning k, GLightning k' => LightningGroup_append k s part md = Ok (k', a)
  | GVicinity k, GVicinity k' => VicinityGroup_append k s part md = Ok (k', a)
  | GMisc k, GMisc k' => MiscGroup_append k s part md = Ok (k', a)
  | GUnknown k, GUnknown k' => UnknownGroup_append k s part md = Ok (k', a)
  | _, _ => False
  end.

Lemma alternative_inv : forall (A : Type) (mk : A -> Group) p s part md g,
  alternative mk p s part md = Ok (Some g) -> exists a, p s part md = Ok (Some a) /\ g = mk a.
Proof.
  intros A mk p s part md g H; unfold alternative in H; apply bind_ok in H.
  destruct H as ([a|] & E & H); [injection H as <-; eauto | discriminate].
Qed.
Lemma parsed_inv : forall p s part md g,
  In p alternatives -> p s part md = Ok (Some g) -> parsed_as g s part md.
Proof.
  intros p s part md g I; unfold alternatives in I.
  repeat (destruct I as [<- |I];
    [intros H; apply alternative_inv in H; destruct H as (a & E & ->); exact E |]).
  contradiction.
Qed.
Lemma wrap_inv : forall (A : Type) (mk : A -> Group) r g a,
  wrap mk r = Ok (g, a) -> exists x, r = Ok (x, a) /\ g = mk x.
Proof.
  intros A mk r g a H; unfold wrap in H; apply bind_ok in H; destruct H as ([x b] & E & H).
  injection H as <- <-; eauto.
Qed.
Lemma appended_inv : forall g s part md g' a,
  Group_append g s part md = Ok (g', a) -> appended_as g s part md g' a.
Proof.
  intros g s part md g' a H; destruct g; cbn [Group_append] in H; apply wrap_inv in H;
    destruct H as (x & E & ->); exact E.
Qed.
Lemma appended_iff : forall g s part md g' a,
  appended_as g s part md g' a -> Group_append g s part md = Ok (g', a).
Proof.
  intros g s part md g' a H; destruct g, g'; cbn in H; try contradiction; cbn [Group_append wrap];
    unfold wrap; rewrite H; reflexivity.
Qed.
Lemma append_index : forall g s part md g' a,
  Group_append g s part md = Ok (g', a) -> Group_index g' = Group_index g.
Proof.
  intros g s part md g' a H; apply appended_inv in H; destruct g, g'; try contradiction; reflexivity.
Qed.

Lemma reach_Keyword : forall P : KeywordGroup -> Prop,
  (forall s part md k, KeywordGroup_parse s part md = Ok (Some k) -> P k) ->
  (forall k s part md k' a, Reachable (GKeyword k) -> P k -> KeywordGroup_append k s part md = Ok (k', a) -> P k') ->
  forall k, Reachable (GKeyword k) -> P k.
Proof.
  intros P B S; enough (A : forall g, Reachable g -> match g with GKeyword k => P k | _ => True end)
    by (intros k R; exact (A _ R)).
  intros g R; induction R as [|p s part md g Hp E|g s part md g' a R IH E]; [exact I|..].
  - apply parsed_inv in E; [|exact Hp]; destruct g; try exact I; eapply B; exact E.
  - apply appended_inv in E; destruct g, g'; try contradiction; try exact I; eapply S; eassumption.
Qed.
Lemma reach_Location : forall P : LocationGroup -> Prop,
  (forall s part md k, LocationGroup_parse s part md = Ok (Some k) -> P k) ->
  (forall k s part md k' a, Reachable (GLocation k) -> P k -> LocationGroup_append k s part md = Ok (k', a) -> P k') ->
  forall k, Reachable (GLocation k) -> P k.
Proof.
  intros P B S; enough (A : forall g, Reachable g -> match g with GLocation k => P k | _ => True end)
    by (intros k R; exact (A _ R)).
  intros g R; induction R as [|p s part md g Hp E|g s part md g' a R IH E]; [exact I|..].
  - apply parsed_inv in E; [|exact Hp]; destruct g; try exact I; eapply B; exact E.
  - apply appended_inv in E; destruct g, g'; try contradiction; try exact I; eapply S; eassumption.
Qed.
Lemma reach_ReportTime : forall P : ReportTimeGroup -> Prop,
  (forall s part md k, ReportTimeGroup_parse s part md = Ok (Some k) -> P k) ->
  (forall k s part md k' a, Reachable (GReportTime k) -> P k -> ReportTimeGroup_append k s part md = Ok (k', a) -> P k') ->
  forall k, Reachable (GReportTime k) -> P k.
Proof.
  intros P B S; enough (A : forall g, Reachable g -> match g with GReportTime k => P k | _ => True end)
    by (intros k R; exact (A _ R)).
  intros g R; induction R as [|p s part md g Hp E|g s part md g' a R IH E]; [exact I|..].
  - apply parsed_inv in E; [|exact Hp]; destruct g; try exact I; eapply B; exact E.
  - apply appended_inv in E; destruct g, g'; try contradiction; try exact I; eapply S; eassumption.
Qed.
Lemma reach_Trend : forall P : TrendGroup -> Prop,
  (forall s part md k, TrendGroup_parse s part md = Ok (Some k) -> P k) ->
  (forall k s part md k' a, Reachable (GTrend k) -> P k -> TrendGroup_append k s part md = Ok (k', a) -> P k') ->
  forall k, Reachable (GTrend k) -> P k.
Proof.
  intros P B S; enough (A : forall g, Reachable g -> match g with GTrend k => P k | _ => True end)
    by (intros k R; exact (A _ R)).
  intros g R; induction R as [|p s part md g Hp E|g s part md g' a R IH E]; [exact I|..].
  - apply parsed_inv in E; [|exact Hp]; destruct g; try exact I; eapply B; exact E.
  - apply appended_inv in E; destruct g, g'; try contradiction; try exact I; eapply S; eassumption.
Qed.
Lemma reach_Wind : forall P : WindGroup -> Prop,
  (forall s part md k, WindGroup_parse s part md = Ok (Some k) -> P k) ->
  (forall k s part md k' a, Reachable (GWind k) -> P k -> WindGroup_append k s part md = Ok (k', a) -> P k') ->
  forall k, Reachable (GWind k) -> P k.
Proof.
  intros P B S; enough (A : forall g, Reachable g -> match g with GWind k => P k | _ => True end)
    by (intros k R; exact (A _ R)).
  intros g R; induction R as [|p s part md g Hp E|g s part md g' a R IH E]; [exact I|..].
  - apply parsed_inv in E; [|exact Hp]; destruct g; try exact I; eapply B; exact E.
  - apply appended_inv in E; destruct g, g'; try contradiction; try exact I; eapply S; eassumption.
Qed.
Lemma reach_Visibility : forall P : VisibilityGroup -> Prop,
  (forall s part md k, VisibilityGroup_parse s part md = Ok (Some k) -> P k) ->
  (forall k s part md k' a, Reachable (GVisibility k) -> P k -> VisibilityGroup_append k s part md = Ok (k', a) -> P k') ->
  forall k, Reachable (GVisibility k) -> P k.
Proof.
  intros P B S; enough (A : forall g, Reachable g -> match g with GVisibility k => P k | _ => True end)
    by (intros k R; exact (A _ R)).
  intros g R; induction R as [|p s part md g Hp E|g s part md g' a R IH E]; [exact I|..].
  - apply parsed_inv in E; [|exact Hp]; destruct g; try exact I; eapply B; exact E.
  - apply appended_inv in E; destruct g, g'; try contradiction; try exact I; eapply S; eassumption.
Qed.
Lemma reach_Cloud : forall P : CloudGroup -> Prop,
  (forall s part md k, CloudGroup_parse s part md = Ok (Some k) -> P k) ->
  (forall k s part md k' a, Reachable (GCloud k) -> P k -> CloudGroup_append k s part md = Ok (k', a) -> P k') ->
  forall k, Reachable (GCloud k) -> P k.
Proof.
  intros P B S; enough (A : forall g, Reachable g -> match g with GCloud k => P k | _ => True end)
    by (intros k R; exact (A _ R)).
  intros g R; induction R as [|p s part md g Hp E|g s part md g' a R IH E]; [exact I|..].
  - apply parsed_inv in E; [|exact Hp]; destruct g; try exact I; eapply B; exact E.
  - apply appended_inv in E; destruct g, g'; try contradiction; try exact I; eapply S; eassumption.
Qed.
Lemma reach_Weather : forall P : WeatherGroup -> Prop,
  (forall s part md k, WeatherGroup_parse s part md = Ok (Some k) -> P k) ->
  (forall k s part md k' a, Reachable (GWeather k) -> P k -> WeatherGroup_append k s part md = Ok (k', a) -> P k') ->
  forall k, Reachable (GWeather k) -> P k.
Proof.
  intros P B S; enough (A : forall g, Reachable g -> match g with GWeather k => P k | _ => True end)
    by (intros k R; exact (A _ R)).
  intros g R; induction R as [|p s part md g Hp E|g s part md g' a R IH E]; [exact I|..].
  - apply parsed_inv in E; [|exact Hp]; destruct g; try exact I; eapply B; exact E.
  - apply appended_inv in E; destruct g, g'; try contradiction; try exact I; eapply S; eassumption.
Qed.
Lemma reach_Temperature : forall P : TemperatureGroup -> Prop,
  (forall s part md k, TemperatureGroup_parse s part md = Ok (Some k) -> P k) ->
  (forall k s part md k' a, Reachable (GTemperature k) -> P k -> TemperatureGroup_append k s part md = Ok (k', a) -> P k') ->
  forall k, Reachable (GTemperature k) -> P k.
Proof.
  intros P B S; enough (A : forall g, Reachable g -> match g with GTemperature k => P k | _ => True end)
    by (intros k R; exact (A _ R)).
  intros g R; induction R as [|p s part md g Hp E|g s part md g' a R IH E]; [exact I|..].
  - apply parsed_inv in E; [|exact Hp]; destruct g; try exact I; eapply B; exact E.
  - apply appended_inv in E; destruct g, g'; try contradiction; try exact I; eapply S; eassumption.
Qed.
Lemma reach_Pressure : forall P : PressureGroup -> Prop,
  (forall s part md k, PressureGroup_parse s part md = Ok (Some k) -> P k) ->
  (forall k s part md k' a, Reachable (GPressure k) -> P k -> PressureGroup_append k s part md = Ok (k', a) -> P k') ->
  forall k, Reachable (GPressure k) -> P k.
Proof.
  intros P B S; enough (A : forall g, Reachable g -> match g with GPressure k => P k | _ => True end)
    by (intros k R; exact (A _ R)).
  intros g R; induction R as [|p s part md g Hp E|g s part md g' a R IH E]; [exact I|..].
  - apply parsed_inv in E; [|exact Hp]; destruct g; try exact I; eapply B; exact E.
  - apply appended_inv in E; destruct g, g'; try contradiction; try exact I; eapply S; eassumption.
Qed.
Lemma reach_RunwayState : forall P : RunwayStateGroup -> Prop,
  (forall s part md k, RunwayStateGroup_parse s part md = Ok (Some k) -> P k) ->
  (forall k s part md k' a, Reachable (GRunwayState k) -> P k -> RunwayStateGroup_append k s part md = Ok (k', a) -> P k') ->
  forall k, Reachable (GRunwayState k) -> P k.
Proof.
  intros P B S; enough (A : forall g, Reachable g -> match g with GRunwayState k => P k | _ => True end)
    by (intros k R; exact (A _ R)).
  intros g R; induction R as [|p s part md g Hp E|g s part md g' a R IH E]; [exact I|..].
  - apply parsed_inv in E; [|exact Hp]; destruct g; try exact I; eapply B; exact E.
  - apply appended_inv in E; destruct g, g'; try contradiction; try exact I; eapply S; eassumption.
Qed.
Lemma reach_SeaSurface : forall P : SeaSurfaceGroup -> Prop,
  (forall s part md k, SeaSurfaceGroup_parse s part md = Ok (Some k) -> P k) ->
  (forall k s part md k' a, Reachable (GSeaSurface k) -> P k -> SeaSurfaceGroup_append k s part md = Ok (k', a) -> P k') ->
  forall k, Reachable (GSeaSurface k) -> P k.
Proof.
  intros P B S; enough (A : forall g, Reachable g -> match g with GSeaSurface k => P k | _ => True end)
    by (intros k R; exact (A _ R)).
  intros g R; induction R as [|p s part md g Hp E|g s part md g' a R IH E]; [exact I|..].
  - apply parsed_inv in E; [|exact Hp]; destruct g; try exact I; eapply B; exact E.
  - apply appended_inv in E; destruct g, g'; try contradiction; try exact I; eapply S; eassumption.
Qed.
Lemma reach_MinMaxTemperature : forall P : MinMaxTemperatureGroup -> Prop,
  (forall s part md k, MinMaxTemperatureGroup_parse s part md = Ok (Some k) -> P k) ->
  (forall k s part md k' a, Reachable (GMinMaxTemperature k) -> P k -> MinMaxTemperatureGroup_append k s part md = Ok (k', a) -> P k') ->
  forall k, Reachable (GMinMaxTemperature k) -> P k.
Proof.
  intros P B S; enough (A : forall g, Reachable g -> match g with GMinMaxTemperature k => P k | _ => True end)
    by (intros k R; exact (A _ R)).
  intros g R; induction R as [|p s part md g Hp E|g s part md g' a R IH E]; [exact I|..].
  - apply parsed_inv in E; [|exact Hp]; destruct g; try exact I; eapply B; exact E.
  - apply appended_inv in E; destruct g, g'; try contradiction; try exact I; eapply S; eassumption.
Qed.
Lemma reach_Precipitation : forall P : PrecipitationGroup -> Prop,
  (forall s part md k, PrecipitationGroup_parse s part md = Ok (Some k) -> P k) ->
  (forall k s part md k' a, Reachable (GPrecipitation k) -> P k -> PrecipitationGroup_append k s part md = Ok (k', a) -> P k') ->
  forall k, Reachable (GPrecipitation k) -> P k.
Proof.
  intros P B S; enough (A : forall g, Reachable g -> match g with GPrecipitation k => P k | _ => True end)
    by (intros k R; exact (A _ R)).
  intros g R; induction R as [|p s part md g Hp E|g s part md g' a R IH E]; [exact I|..].
  - apply parsed_inv in E; [|exact Hp]; destruct g; try exact I; eapply B; exact E.
  - apply appended_inv in E; destruct g, g'; try contradiction; try exact I; eapply S; eassumption.
Qed.
Lemma reach_LayerForecast : forall P : LayerForecastGroup -> Prop,
  (forall s part md k, LayerForecastGroup_parse s part md = Ok (Some k) -> P k) ->
  (forall k s part md k' a, Reachable (GLayerForecast k) -> P k -> LayerForecastGroup_append k s part md = Ok (k', a) -> P k') ->
  forall k, Reachable (GLayerForecast k) -> P k.
Proof.
  intros P B S; enough (A : forall g, Reachable g -> match g with GLayerForecast k => P k | _ => True end)
    by (intros k R; exact (A _ R)).
  intros g R; induction R as [|p s part md g Hp E|g s part md g' a R IH E]; [exact I|..].
  - apply parsed_inv in E; [|exact Hp]; destruct g; try exact I; eapply B; exact E.
  - apply appended_inv in E; destruct g, g'; try contradiction; try exact I; eapply S; eassumption.
Qed.
Lemma reach_PressureTendency : forall P : PressureTendencyGroup -> Prop,
  (forall s part md k, PressureTendencyGroup_parse s part md = Ok (Some k) -> P k) ->
  (forall k s part md k' a, Reachable (GPressureTendency k) -> P k -> PressureTendencyGroup_append k s part md = Ok (k', a) -> P k') ->
  forall k, Reachable (GPressureTendency k) -> P k.
Proof.
  intros P B S; enough (A : forall g, Reachable g -> match g with GPressureTendency k => P k | _ => True end)
    by (intros k R; exact (A _ R)).
  intros g R; induction R as [|p s part md g Hp E|g s part md g' a R IH E]; [exact I|..].
  - apply parsed_inv in E; [|exact Hp]; destruct g; try exact I; eapply B; exact E.
  - apply appended_inv in E; destruct g, g'; try contradiction; try exact I; eapply S; eassumption.
Qed.
Lemma reach_CloudTypes : forall P : CloudTypesGroup -> Prop,
  (forall s part md k, CloudTypesGroup_parse s part md = Ok (Some k) -> P k) ->
  (forall k s part md k' a, Reachable (GCloudTypes k) -> P k -> CloudTypesGroup_append k s part md = Ok (k', a) -> P k') ->
  forall k, Reachable (GCloudTypes k) -> P k.
Proof.
  intros P B S; enough (A : forall g, Reachable g -> match g with GCloudTypes k => P k | _ => True end)
    by (intros k R; exact (A _ R)).
  intros g R; induction R as [|p s part md g Hp E|g s part md g' a R IH E]; [exact I|..].
  - apply parsed_inv in E; [|exact Hp]; destruct g; try exact I; eapply B; exact E.
  - apply appended_inv in E; destruct g, g'; try contradiction; try exact I; eapply S; eassumption.
Qed.
Lemma reach_LowMidHighCloud : forall P : LowMidHighCloudGroup -> Prop,
  (forall s part md k, LowMidHighCloudGroup_parse s part md = Ok (Some k) -> P k) ->
  (forall k s part md k' a, Reachable (GLowMidHighCloud k) -> P k -> LowMidHighCloudGroup_append k s part md = Ok (k', a) -> P k') ->
  forall k, Reachable (GLowMidHighCloud k) -> P k.
Proof.
  intros P B S; enough (A : forall g, Reachable g -> match g with GLowMidHighCloud k => P k | _ => True end)
    by (intros k R; exact (A _ R)).
  intros g R; induction R as [|p s part md g Hp E|g s part md g' a R IH E]; [exact I|..].
  - apply parsed_inv in E; [|exact Hp]; destruct g; try exact I; eapply B; exact E.
  - apply appended_inv in E; destruct g, g'; try contradiction; try exact I; eapply S; eassumption.
Qed.
Lemma reach_Lightning : forall P : LightningGroup -> Prop,
  (forall s part md k, LightningGroup_parse s part md = Ok (Some k) -> P k) ->
  (forall k s part md k' a, Reachable (GLightning k) -> P k -> LightningGroup_append k s part md = Ok (k', a) -> P k') ->
  forall k, Reachable (GLightning k) -> P k.
Proof.
  intros P B S; enough (A : forall g, Reachable g -> match g with GLightning k => P k | _ => True end)
    by (intros k R; exact (A _ R)).
  intros g R; induction R as [|p s part md g Hp E|g s part md g' a R IH E]; [exact I|..].
  - apply parsed_inv in E; [|exact Hp]; destruct g; try exact I; eapply B; exact E.
  - apply appended_inv in E; destruct g, g'; try contradiction; try exact I; eapply S; eassumption.
Qed.
Lemma reach_Vicinity : forall P : VicinityGroup -> Prop,
  (forall s part md k, VicinityGroup_parse s part md = Ok (Some k) -> P k) ->
  (forall k s part md k' a, Reachable (GVicinity k) -> P k -> VicinityGroup_append k s part md = Ok (k', a) -> P k') ->
  forall k, Reachable (GVicinity k) -> P k.
Proof.
  intros P B S; enough (A : forall g, Reachable g -> match g with GVicinity k => P k | _ => True end)
    by (intros k R; exact (A _ R)).
  intros g R; induction R as [|p s part md g Hp E|g s part md g' a R IH E]; [exact I|..].
  - apply parsed_inv in E; [|exact Hp]; destruct g; try exact I; eapply B; exact E.
  - apply appended_inv in E; destruct g, g'; try contradiction; try exact I; eapply S; eassumption.
Qed.
Lemma reach_Misc : forall P : MiscGroup -> Prop,
  (forall s part md k, MiscGroup_parse s part md = Ok (Some k) -> P k) ->
  (forall k s part md k' a, Reachable (GMisc k) -> P k -> MiscGroup_append k s part md = Ok (k', a) -> P k') ->
  forall k, Reachable (GMisc k) -> P k.
Proof.
  intros P B S; enough (A : forall g, Reachable g -> match g with GMisc k => P k | _ => True end)
    by (intros k R; exact (A _ R)).
  intros g R; induction R as [|p s part md g Hp E|g s part md g' a R IH E]; [exact I|..].
  - apply parsed_inv in E; [|exact Hp]; destruct g; try exact I; eapply B; exact E.
  - apply appended_inv in E; destruct g, g'; try contradiction; try exact I; eapply S; eassumption.
Qed.

(** ** The order in which the kinds are tried *)

Definition rejects (s : string) (part : ReportPart) (md : ReportMetadata)
  (p : string -> ReportPart -> ReportMetadata -> res (option Group)) : Prop := p s part md = Ok None.

Lemma parseAlternatives_inv : forall s part md l g, parseAlternatives l s part md = Ok g ->
  exists j, (forall i p, (i < j)%nat -> nth_error l i = Some p -> rejects s part md p)
    /\ ((exists p, nth_error l j = Some p /\ p s part md = Ok (Some g))
        \/ (j = length l /\ g = GUnknown mkUnknown)).
Proof.
  induction l as [|p l IH]; intros g H; cbn [parseAlternatives] in H.
  - injection H as <-; exists 0%nat; split; [intros; lia | right; auto].
  - apply bind_ok in H; destruct H as ([x|] & E & H).
    + injection H as ->; exists 0%nat; split; [intros; lia | left; exists p; split; [reflexivity | exact E]].
    + destruct (IH g H) as (j & A & B); exists (S j); split.
      * intros [|i] q Hi Hq; [injection Hq as ->; exact E | apply (A i q); [lia | exact Hq]].
      * destruct B as [B|[-> B]]; [left; exact B | right; auto].
Qed.
Lemma index_of_alternative : forall j p s part md g,
  nth_error alternatives j = Some p -> p s part md = Ok (Some g) -> Group_index g = j.
Proof.
  assert (A : Forall (fun x => forall s part md g, snd x s part md = Ok (Some g) -> Group_index g = fst x)
                (combine (seq 0 21) alternatives)).
  { unfold alternatives; cbn [combine seq].
    repeat (apply Forall_cons;
      [intros s part md g H; apply alternative_inv in H; destruct H as (a & _ & ->); reflexivity|]).
    apply Forall_nil. }
  assert (B : forall (l : list (string -> ReportPart -> ReportMetadata -> res (option Group))) i j p,
    nth_error l j = Some p -> In ((i + j)%nat, p) (combine (seq i (length l)) l)).
  { induction l as [|q l IH]; intros i [|j] p H; cbn in *; try discriminate.
    - left; rewrite Nat.add_0_r; congruence.
    - right; rewrite <- Nat.add_succ_comm; apply IH; exact H. }
  intros j p s part md g H E; rewrite Forall_forall in A.
  exact (A _ (B alternatives 0%nat j p H) s part md g E).
Qed.
Lemma GroupParser_parse_inv : forall s part md g, GroupParser_parse s part md = Ok g ->
  (g = GUnknown mkUnknown \/ parsed_as g s part md)
  /\ (forall i p, (i < Group_index g)%nat -> nth_error alternatives i = Some p -> rejects s part md p).
Proof.
  intros s part md g H; unfold GroupParser_parse in H; apply parseAlternatives_inv in H; destruct H as (j & A & B).
  destruct B as [(p & Hp & E)|[-> ->]].
  - split.
    + right; eapply parsed_inv; [eapply nth_error_In; exact Hp | exact E].
    + rewrite (index_of_alternative _ _ _ _ _ _ Hp E); exact A.
  - split; [left; reflexivity | exact A].
Qed.
Lemma reparseAlternatives_inv : forall s part md k l i g, reparseAlternatives l i s part md k = Ok g ->
  g = GUnknown mkUnknown
  \/ exists j p, nth_error l j = Some p /\ p s part md = Ok (Some g) /\ (i + j)%nat <> k.
Proof.
  induction l as [|p l IH]; intros i g H; cbn [reparseAlternatives] in H.
  - injection H as <-; auto.
  - destruct (Nat.eqb i k) eqn:K.
    + destruct (IH _ _ H) as [->|(j & q & Hq & E & N)]; [auto | right; exists (S j), q].
      repeat split; auto; lia.
    + apply Nat.eqb_neq in K; apply bind_ok in H; destruct H as ([x|] & E & H).
      * injection H as ->; right; exists 0%nat, p; repeat split; auto; lia.
      * destruct (IH _ _ H) as [->|(j & q & Hq & E' & N)]; [auto | right; exists (S j), q].
        repeat split; auto; lia.
Qed.
Lemma GroupParser_reparse_eq : forall s part md prev, GroupParser_reparse s part md prev = reparseAlternatives alternatives 0 s part md (Group_index prev).
Proof. intros. reflexivity. Qed.
Lemma GroupParser_reparse_inv : forall s part md prev g, GroupParser_reparse s part md prev = Ok g ->
  g = GUnknown mkUnknown \/ (parsed_as g s part md /\ Group_index g <> Group_index prev).
Proof.
  intros s part md prev g H. rewrite GroupParser_reparse_eq in H.
  destruct (reparseAlternatives_inv s part md (Group_index prev) alternatives 0 g H) as [X|(j & p & Hp & E & N)].
  - left; exact X.
  - right; split.
    + exact (parsed_inv p s part md g (nth_error_In _ _ Hp) E).
    + intros X; rewrite (index_of_alternative j p s part md g Hp E) in X; exact (N X).
Qed.
