(** C61 to C64: the weather summary of examples/summary.cpp. *)
From Coq Require Import ZArith NArith QArith List String.
From Verif Require Import Prim Regex Float Values Weather Groups1 Groups2 Groups3 Groups4 Parser Summary.
From Verif Require Import SpecReal SpecUnits SpecSumNumbers SpecSummary.
From Verif Require Import Pf_Summary Pf_SumValues Pf_SumWeather Pf_SumRefuted.
Import ListNotations.
Local Open Scope string_scope.

(** *** C61: a summary is returned for all texts *)
(** In particular no floating-point value is out of the range of int. *)
Theorem C61_summary_returns :
  forall (pow : flt -> flt -> flt), pow_tame pow ->
  forall (sgn : bool) (metar taf : string) (year month day : Z) (imperial : bool),
    exists w, getCurrentWeather pow sgn metar taf year month day imperial = Ok w.
Proof. exact summary_returns. Qed.
Print Assumptions C61_summary_returns.
Example C61_nonvacuous : pow_tame pow_one.
Proof. exact pow_one_tame. Qed.

(** *** C62: the values of the summary *)
(** From METAR the surface wind and the prevailing visibility count; the rule for TAF, by which any
    wind and any visibility counts, is the part of the property that is missing. *)
Theorem C62_values_partial :
  forall (pow : flt -> flt -> flt) (sgn : bool) (metar taf : string) (year month day : Z) (i : bool) (w : CurrentWeather),
    getCurrentWeather pow sgn metar taf year month day i = Ok w ->
    (forall gs, usable sgn metar RT_METAR gs ->
       common_values i surface_wind prevailing (before_trend 0 gs) w
       /\ observed_values pow i (before_trend 0 gs) w
       /\ (proper_date year month day -> updated year month day gs w))
    /\ (forall gs, unusable sgn metar RT_METAR -> usable sgn taf RT_TAF gs \/ unusable sgn taf RT_TAF /\ gs = [] ->
       common_values i any_wind any_visibility (before_trend 1 gs) w
       /\ no_values_observed w
       /\ (proper_date year month day -> updated year month day gs w))
    /\ (forall gs, usable sgn taf RT_TAF gs \/ unusable sgn taf RT_TAF /\ gs = [] ->
       forecast_says i mm_minTemp gs (cw_airTemperatureLow w) /\ forecast_says i mm_maxTemp gs (cw_airTemperatureHigh w)).
Proof. exact summary_values. Qed.
Print Assumptions C62_values_partial.
Definition metar_shown := "METAR ZZZZ 171530Z 18010G20KT 9999 -SHRA VCTS BKN008 OVC010CB 20/15 Q1013 NOSIG=".
Definition taf_shown := "TAF ZZZZ 301100Z 3012/3112 05010KT CAVOK TX22/3014Z TN12/3104Z BECMG 3018/3020 -RA=".
Example C62_nonvacuous :
  getCurrentWeather pow_one true metar_shown taf_shown 2026 11 17 false
  = Ok (mkCurrent 180 false 18 37 10000 Sky_OVERCAST true [SW_RAIN_SHOWERS_LIGHT; SW_THUNDERSTORM_IN_VICINITY]
          20 20 22 12 100 1013 2026 11 17 15 30)
  /\ getCurrentWeather pow_one true "" taf_shown 2026 11 17 true
     = Ok (mkCurrent 50 false 11 valueNotSpecified 6 Sky_MOSTLY_CLEAR false [] valueNotSpecified valueNotSpecified 71 53
             valueNotSpecified valueNotSpecified 2026 10 30 11 0)
  /\ usable true metar_layers RT_METAR (groups_of metar_layers) /\ unusable true "" RT_METAR
  /\ proper_date 2026 11 17.
Proof.
  split; [vm_compute; reflexivity|]. split; [vm_compute; reflexivity|]. split; [exact layers_usable|].
  split; [exact (no_report _ _)|]. repeat split; vm_compute; congruence.
Qed.
(** The wind of a wind shear group is shown as the wind. *)
Theorem C62_forecast_surface_wind_refuted :
  ~ forall (pow : flt -> flt -> flt) (sgn : bool) (metar taf : string) (year month day : Z) (i : bool) (w : CurrentWeather) (gs : list Group),
    pow_tame pow -> getCurrentWeather pow sgn metar taf year month day i = Ok w ->
    unusable sgn metar RT_METAR -> usable sgn taf RT_TAF gs ->
    last_said (says_direction surface_wind) valueNotSpecified (before_trend 1 gs) (cw_windDirection w).
Proof. exact wind_shear_shown. Qed.
Print Assumptions C62_forecast_surface_wind_refuted.
(** 30.02 inches are shown as 3001 hundredths. *)
Theorem C62_inches_exact_refuted :
  getCurrentWeather pow_one true "METAR ZZZZ 171530Z 18010KT 10SM A3002=" "" 2026 11 17 true
  = Ok (mkCurrent 180 false 11 valueNotSpecified 10 Sky_NOT_SPECIFIED false [] valueNotSpecified valueNotSpecified
          valueNotSpecified valueNotSpecified valueNotSpecified 3001 2026 11 17 15 30).
Proof. vm_compute. reflexivity. Qed.
Print Assumptions C62_inches_exact_refuted.

(** *** C63: the weather symbols *)
Theorem C63_symbols_partial :
  forall (pow : flt -> flt -> flt) (sgn : bool) (metar taf : string) (year month day : Z) (i : bool) (w : CurrentWeather),
    getCurrentWeather pow sgn metar taf year month day i = Ok w ->
    (forall gs, usable sgn metar RT_METAR gs ->
       all_symbols misshown (phenomena_in current_weather (before_trend 0 gs)) (cw_weather w))
    /\ (forall gs, unusable sgn metar RT_METAR -> usable sgn taf RT_TAF gs \/ unusable sgn taf RT_TAF /\ gs = [] ->
       all_symbols misshown (phenomena_in any_weather (before_trend 1 gs)) (cw_weather w)).
Proof. exact summary_symbols. Qed.
Print Assumptions C63_symbols_partial.
Example C63_nonvacuous :
  best_symbol Q_LIGHT D_SHOWERS W_RAIN SW_RAIN_SHOWERS_LIGHT
  /\ best_symbol Q_HEAVY D_NONE W_FUNNEL_CLOUD SW_TORNADO
  /\ ~ best_symbol Q_LIGHT D_SHOWERS W_RAIN SW_RAIN_LIGHT
  /\ ~ true_symbol Q_LIGHT D_NONE W_RAIN SW_RAIN_SHOWERS_LIGHT.
Proof.
  split; [apply best_checked; vm_compute; reflexivity|]. split; [apply best_checked; vm_compute; reflexivity|].
  split; [|intros (_ & _ & _ & [H|H]); discriminate H].
  intros [_ B]. destruct (B SW_RAIN_SHOWERS_LIGHT) as [H|H]; [|discriminate H|vm_compute in H; inversion H; inversion H1; inversion H3].
  split; [reflexivity|]. split; [reflexivity|]. split; [right; left; reflexivity|right; reflexivity].
Qed.
(** Light ice pellets are shown as light showers of ice pellets. *)
Theorem C63_symbols_refuted :
  ~ forall (pow : flt -> flt -> flt) (sgn : bool) (metar taf : string) (year month day : Z) (i : bool) (w : CurrentWeather) (gs : list Group),
    pow_tame pow -> getCurrentWeather pow sgn metar taf year month day i = Ok w -> usable sgn metar RT_METAR gs ->
    all_symbols none_bad (phenomena_in current_weather (before_trend 0 gs)) (cw_weather w).
Proof. exact pellets_shown. Qed.
Print Assumptions C63_symbols_refuted.
(** A funnel cloud in the vicinity is shown as precipitation in the vicinity. *)
Theorem C63_funnel_cloud_refuted :
  exists w, getCurrentWeather pow_one true "METAR ZZZZ 171530Z 18010KT 10SM VCFC OVC010=" "" 2026 11 17 false = Ok w
    /\ cw_weather w = [SW_PRECIPITATION_IN_VICINITY].
Proof. exact funnel_shown. Qed.
Print Assumptions C63_funnel_cloud_refuted.

(** *** C64: the sky *)
(** The sky is unspecified exactly if no group tells an amount of clouds, and never shown as cloudier
    than what is reported. *)
Theorem C64_sky_specified :
  forall (pow : flt -> flt -> flt) (sgn : bool) (metar taf : string) (year month day : Z) (i : bool) (w : CurrentWeather),
    getCurrentWeather pow sgn metar taf year month day i = Ok w ->
    (forall gs, usable sgn metar RT_METAR gs -> sky_specified (before_trend 0 gs) (cw_cloud w))
    /\ (forall gs, unusable sgn metar RT_METAR -> usable sgn taf RT_TAF gs \/ unusable sgn taf RT_TAF /\ gs = [] ->
       sky_specified (before_trend 1 gs) (cw_cloud w)).
Proof. exact summary_sky. Qed.
Print Assumptions C64_sky_specified.
(** If no layer follows a layer of a greater amount, and there are no variable amounts, it is the
    greatest amount. *)
Theorem C64_sky_greatest_partial :
  forall (pow : flt -> flt -> flt) (sgn : bool) (metar taf : string) (year month day : Z) (i : bool) (w : CurrentWeather),
    getCurrentWeather pow sgn metar taf year month day i = Ok w ->
    (forall gs, usable sgn metar RT_METAR gs ->
       layers_in_order (before_trend 0 gs) -> no_variable_amounts (before_trend 0 gs) -> greatest_sky (before_trend 0 gs) (cw_cloud w))
    /\ (forall gs, unusable sgn metar RT_METAR -> usable sgn taf RT_TAF gs \/ unusable sgn taf RT_TAF /\ gs = [] ->
       layers_in_order (before_trend 1 gs) -> no_variable_amounts (before_trend 1 gs) -> greatest_sky (before_trend 1 gs) (cw_cloud w)).
Proof. exact summary_greatest. Qed.
Print Assumptions C64_sky_greatest_partial.
(** OVC010 FEW040 is shown as mostly clear. *)
Theorem C64_sky_greatest_refuted :
  ~ forall (pow : flt -> flt -> flt) (sgn : bool) (metar taf : string) (year month day : Z) (i : bool) (w : CurrentWeather) (gs : list Group),
    pow_tame pow -> getCurrentWeather pow sgn metar taf year month day i = Ok w -> usable sgn metar RT_METAR gs ->
    no_variable_amounts (before_trend 0 gs) -> greatest_sky (before_trend 0 gs) (cw_cloud w).
Proof. exact layers_shown. Qed.
Print Assumptions C64_sky_greatest_refuted.
(** BKN014 V OVC alone is shown as mostly clear. *)
Theorem C64_variable_amount_refuted :
  ~ forall (pow : flt -> flt -> flt) (sgn : bool) (metar taf : string) (year month day : Z) (i : bool) (w : CurrentWeather) (gs : list Group),
    pow_tame pow -> getCurrentWeather pow sgn metar taf year month day i = Ok w -> usable sgn metar RT_METAR gs ->
    layers_in_order (before_trend 0 gs) -> greatest_sky (before_trend 0 gs) (cw_cloud w).
Proof. exact variable_shown. Qed.
Print Assumptions C64_variable_amount_refuted.
