(** C54: groups of precipitation amounts, icing and turbulence layers, and other data. *)
From Verif Require Import Prim Regex Float Values Weather Groups1 Groups2 Groups3 Groups4 Parser.
From Verif Require Import SpecText SpecReal SpecNumeral SpecScale SpecMiles SpecTexts SpecAssembled SpecAmounts.
From Verif Require Import Pf_Amounts Pf_Miscs.
Local Open Scope string_scope.

(** A precipitation group that no next word can invalidate tells what its words say, given the
    time of the report; and every word sequence of [Precipitations] makes such a group. *)
Theorem C54_precipitation :
  forall (part : ReportPart) (now : option MetafTime) (words : list string),
    (forall g, Assembled part now words (GPrecipitation g) -> settled part (GPrecipitation g) ->
       Precipitations part now words (pc_type g) (pc_amount g) (pc_change g))
    /\ (forall t total recent, Precipitations part now words t total recent ->
         exists g, Assembled part now words (GPrecipitation g) /\ settled part (GPrecipitation g) /\ pc_type g = t).
Proof. exact precipitation_words. Qed.
Print Assumptions C54_precipitation.
Theorem C54_precipitation_report :
  forall (sgn : bool) (report : string) (limit : nat) (r : ParseResult),
    parse sgn report limit = Ok r ->
    forall (g : PrecipitationGroup) (part : ReportPart) (raw : string),
      In (mkGroupInfo (GPrecipitation g) part raw) (pr_groups r) -> raw <> "" ->
      Precipitations part (md_reportTime (pr_metadata r)) (words_of raw) (pc_type g) (pc_amount g) (pc_change g).
Proof. exact result_precipitation. Qed.
Print Assumptions C54_precipitation_report.
Theorem C54_layer_forecast :
  forall (part : ReportPart) (now : option MetafTime) (words : list string) (t : LfType) (base top : Distance),
    Assembled part now words (GLayerForecast (mkLayerForecast t base top)) <-> Layers part words t base top.
Proof. exact layer_words. Qed.
Print Assumptions C54_layer_forecast.
Theorem C54_layer_forecast_report :
  forall (sgn : bool) (report : string) (limit : nat) (r : ParseResult),
    parse sgn report limit = Ok r ->
    forall (g : LayerForecastGroup) (part : ReportPart) (raw : string),
      In (mkGroupInfo (GLayerForecast g) part raw) (pr_groups r) -> raw <> "" ->
      Layers part (words_of raw) (lf_type g) (lf_base g) (lf_top g).
Proof. exact result_layer. Qed.
Print Assumptions C54_layer_forecast_report.
Theorem C54_misc :
  forall (part : ReportPart) (now : option MetafTime) (words : list string),
    (forall g, Assembled part now words (GMisc g) -> settled part (GMisc g) -> Misc part words (ms_type g) (ms_data g))
    /\ (forall t data, Misc part words t data ->
         exists g, Assembled part now words (GMisc g) /\ settled part (GMisc g) /\ ms_type g = t).
Proof. exact misc_words. Qed.
Print Assumptions C54_misc.
Theorem C54_misc_report :
  forall (sgn : bool) (report : string) (limit : nat) (r : ParseResult),
    parse sgn report limit = Ok r ->
    forall (g : MiscGroup) (part : ReportPart) (raw : string),
      In (mkGroupInfo (GMisc g) part raw) (pr_groups r) -> raw <> "" -> Misc part (words_of raw) (ms_type g) (ms_data g).
Proof. exact result_misc. Qed.
Print Assumptions C54_misc_report.

Example C54_nonvacuous : exists r s p q g h l i,
  parse true "METAR YXXX 280551Z 24010KT 9999 RF00.5/012.0 BLU RMK 60009 SNINCR 2/10 GR 1 3/4 DENSITY ALT 6500FT=" 100 = Ok r
  /\ parse true "TAF UUWW 280500Z 2806/2906 24010KT 9999 620304 FS80008=" 100 = Ok s
  /\ In (mkGroupInfo (GPrecipitation p) RP_RMK "60009") (pr_groups r)
  /\ In (mkGroupInfo (GPrecipitation q) RP_RMK "SNINCR 2/10") (pr_groups r)
  /\ In (mkGroupInfo (GMisc g) RP_RMK "GR 1 3/4") (pr_groups r)
  /\ In (mkGroupInfo (GMisc h) RP_RMK "DENSITY ALT 6500FT") (pr_groups r)
  /\ In (mkGroupInfo (GLayerForecast l) RP_TAF "620304") (pr_groups s)
  /\ In (mkGroupInfo (GMisc i) RP_TAF "FS80008") (pr_groups s)
  /\ pc_type p = Pc_FROZEN_PRECIP_6_HOURLY
  /\ precipValue (pc_amount q) = Some (f32_of_N 10) /\ precipValue (pc_change q) = Some (f32_of_N 2)
  /\ ms_data h = Some (f32_of_N 6500) /\ dist (lf_top l) = Some 7000%N /\ ms_type i = Ms_ISSUER_ID_FS.
Proof. exact amounts_example. Qed.
