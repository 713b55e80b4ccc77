(** Nothing is appended at the end of the report, where the text to append is empty. *)
From Verif Require Import Prim Lib Regex Float Values Weather Groups1 Groups2 Groups3 Groups4 Parser Pf_Ok Pf_Kinds.
Local Open Scope string_scope.

Ltac empty_text H :=
  repeat first
  [ discriminate H
  | match type of H with
    | bind ?a _ = Ok _ => let x := fresh "x" in let E := fresh "E" in
        apply bind_ok in H; destruct H as (x & E & H); try discriminate E; try (injection E as <-)
    | (let '(_, _) := ?x in _) = Ok _ => destruct x
    | (if ?b then _ else _) = Ok _ => destruct b
    | (match ?b with _ => _ end) = Ok _ => destruct b
    end; cbv beta zeta in H ].
Lemma trend_empty : forall part md, TrendGroup_parse "" part md = Ok None.
Proof. intros part md; destruct part; vm_compute; reflexivity. Qed.
Lemma weather_empty : forall part, Weather_parseWeatherWithoutEvent "" part = Ok None.
Proof. intros part; destruct part; vm_compute; reflexivity. Qed.
Lemma end_append : forall g part md g', is_fallback g = false -> Group_append g "" part md = Ok (g', APPENDED) -> False.
Proof.
  intros g part md g' F H; apply appended_inv in H.
  destruct g, g'; try contradiction; cbn [appended_as] in H.
  - unfold KeywordGroup_append in H; empty_text H.
  - unfold LocationGroup_append in H; empty_text H.
  - unfold ReportTimeGroup_append in H; empty_text H.
  - unfold TrendGroup_append in H. rewrite trend_empty in H. cbn [bind] in H. cbv beta iota zeta in H. empty_text H.
  - unfold WindGroup_append, Wind_appendWindShift in H. change (seqb "" "FROPA") with false in H. cbv iota in H. change (Nat.eqb (slen "") 2) with false in H. change (Nat.eqb (slen "") 4) with false in H. rewrite andb_false_r in H. empty_text H.
  - unfold VisibilityGroup_append in H; empty_text H.
  - unfold CloudGroup_append in H; empty_text H.
  - unfold WeatherGroup_append in H. rewrite weather_empty in H. cbn [bind] in H. cbv beta iota zeta in H. empty_text H.
  - unfold TemperatureGroup_append in H; empty_text H.
  - unfold PressureGroup_append in H; empty_text H.
  - unfold RunwayStateGroup_append in H; empty_text H.
  - unfold SeaSurfaceGroup_append in H; empty_text H.
  - unfold MinMaxTemperatureGroup_append, MinMax_append6hourly, MinMax_appendForecast in H. cbv zeta in H.
    assert (A : MinMax_from6hourly "" = Ok None) by (vm_compute; reflexivity).
    assert (B : MinMax_fromForecast "" = Ok None) by (vm_compute; reflexivity).
    rewrite A, B in H. cbn [bind] in H. cbv beta iota zeta in H. empty_text H.
  - unfold PrecipitationGroup_append in H; empty_text H.
  - unfold LayerForecastGroup_append in H; empty_text H.
  - unfold PressureTendencyGroup_append in H; empty_text H.
  - unfold CloudTypesGroup_append in H; empty_text H.
  - unfold LowMidHighCloudGroup_append in H; empty_text H.
  - unfold LightningGroup_append in H; empty_text H.
  - unfold VicinityGroup_append in H; empty_text H.
  - unfold MiscGroup_append in H; empty_text H.
  - discriminate F.
Qed.
