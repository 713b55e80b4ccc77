(** C60: groups which a next word invalidates, and groups which may end. *)
From Coq Require Import Lia.
From Verif Require Import Prim Lib Regex Float Values Weather Groups1 Groups2 Groups3 Groups4 Parser SpecReach SpecAssembled.
From Verif Require Import Pf_Ok Pf_Caps Pf_Kinds Pf_Total Pf_EndAppend.
From Verif Require SpecVisibility.
Import SpecVisibility(may_end).
Local Open Scope string_scope.

Ltac outcome H :=
  repeat first
  [ discriminate H
  | match type of H with
    | bind ?a _ = Ok _ => let x := fresh "x" in let E := fresh "E" in
        apply bind_ok in H; destruct H as (x & E & H); try discriminate E; clear E
    | (let '(_, _) := ?x in _) = Ok _ => destruct x
    | (if ?b then _ else _) = Ok _ => destruct b
    | (match ?b with _ => _ end) = Ok _ => destruct b
    | Ok (_, if ?b then _ else _) = Ok _ => destruct b
    end; cbv beta zeta in H ].
(** A group is invalidated by every word which does not continue it, or by none. *)
Lemma ends_settled : forall part g, (forall v, g <> GVisibility v) -> may_end part g -> settled part g.
Proof.
  intros part g NV (w & md & g' & H) w2 md2 g2 H2. apply appended_inv in H. apply appended_inv in H2.
  destruct g, g'; try contradiction; destruct g2; try contradiction; cbn [appended_as] in H, H2.
  - unfold KeywordGroup_append in *; discriminate H2.
  - unfold LocationGroup_append in *; discriminate H2.
  - unfold ReportTimeGroup_append in *; discriminate H2.
  - unfold TrendGroup_append in *; outcome H2.
  - unfold WindGroup_append in *. destruct (wi_inc g).
    + unfold Wind_appendVariableSector, Wind_appendWindShift in H2. outcome H2.
    + outcome H.
    + unfold Wind_appendPeakWind in H. outcome H.
    + outcome H.
    + outcome H.
    + outcome H.
  - destruct (NV g eq_refl).
  - unfold CloudGroup_append in *. destruct (cl_inc g); unfold Cloud_appendVariableCloudAmount, Cloud_appendCeiling, Cloud_appendObscuration, Cloud_appendRunwayOrCardinalDirection in *; cbv beta zeta in H, H2;
      first [solve [outcome H]|solve [outcome H2]].
  - unfold WeatherGroup_append in *. cbv zeta in H, H2. destruct (wx_inc g); first [solve [outcome H]|solve [outcome H2]].
  - unfold TemperatureGroup_append in *. destruct (tg_isIncomplete g && _); first [solve [outcome H]|solve [outcome H2]].
  - unfold PressureGroup_append in *. destruct (pg_isIncomplete g && _); first [solve [outcome H]|solve [outcome H2]].
  - unfold RunwayStateGroup_append in *; discriminate H2.
  - unfold SeaSurfaceGroup_append in *; discriminate H2.
  - unfold MinMaxTemperatureGroup_append, MinMax_append6hourly, MinMax_appendForecast in H2. cbv zeta in H2. outcome H2.
  - unfold PrecipitationGroup_append in *. destruct (PcType_beq (pc_type g) Pc_PCPN_MISG || _); [|outcome H2]. destruct (negb (pc_isIncomplete g)); [discriminate H2|]. outcome H.
  - unfold LayerForecastGroup_append in *; discriminate H2.
  - unfold PressureTendencyGroup_append in *; discriminate H2.
  - unfold CloudTypesGroup_append in *. cbv zeta in H2. outcome H2.
  - unfold LowMidHighCloudGroup_append in *; discriminate H2.
  - unfold LightningGroup_append in *. destruct (lt_incomplete g); [outcome H|outcome H2].
  - unfold VicinityGroup_append in *. cbv zeta in H, H2. destruct (vc_inc g); first [solve [outcome H]|solve [outcome H2]].
  - unfold MiscGroup_append in *. cbv zeta in H, H2. destruct (ms_inc g); first [solve [outcome H]|solve [outcome H2]].
  - discriminate H2.
Qed.
Lemma settled_ends : forall part g, Reachable g -> is_fallback g = false -> settled part g -> may_end part g.
Proof.
  intros part g R F S. destruct (append_returns g "" part md_default R) as (g' & [ | | ] & E).
  - exfalso. exact (end_append _ _ _ _ F E).
  - exists "", md_default, g'. exact E.
  - exfalso. exact (S _ _ _ E).
Qed.
