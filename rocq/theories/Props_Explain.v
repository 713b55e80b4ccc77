(** C65 to C71: the table of explanations of examples/explain.cpp. *)
From Coq Require Import ZArith NArith QArith List String.
From Verif Require Import Prim Regex Float Values Weather Groups1 Groups2 Groups3 Groups4 Parser Summary Format Explain.
From Verif Require Import SpecReal SpecSumNumbers SpecNumeral SpecExplain SpecShown.
From Verif Require Import Pf_SumRefuted Pf_ExTable Pf_ExValid Pf_ExShown.
Import ListNotations.
Local Open Scope string_scope.

(** *** C65: a table is returned *)
(** There is no undefined behaviour and no endless loop, and only one way for an exception: a group for a varying runway
    visual range which names no runway. *)
Theorem C65_explain_outcome_partial :
  forall (pow : flt -> flt -> flt), pow_tame pow ->
  forall (sgn : bool) (input : string) (p : ParseResult), parse sgn input default_groupLimit = Ok p ->
    (~ names_no_runway p /\ exists t, explain pow sgn input = Ok t) \/ (names_no_runway p /\ explain pow sgn input = Bad Throw).
Proof. exact explain_outcome. Qed.
Print Assumptions C65_explain_outcome_partial.
(** It takes a certain text for such a group to be in a report. *)
Theorem C65_explain_returns_partial :
  forall (pow : flt -> flt -> flt), pow_tame pow ->
  forall (sgn : bool) (input : string), mentions "R///////V" input = false -> exists t, explain pow sgn input = Ok t.
Proof. exact explain_returns. Qed.
Print Assumptions C65_explain_returns_partial.
Example C65_nonvacuous : pow_tame pow_one /\ mentions "R///////V" "METAR EGLL 010000Z 24008KT 9999 R27L/0600V1000 20/10 Q1010" = false.
Proof. split; [exact pow_one_tame|vm_compute; reflexivity]. Qed.
Theorem C65_explain_returns_refuted :
  forall (pow : flt -> flt -> flt) (sgn : bool), explain pow sgn "METAR EGLL 010000Z 00000KT 9999 R///////V1000 20/10 Q1010" = Bad Throw.
Proof. exact unnamed_throws. Qed.
Print Assumptions C65_explain_returns_refuted.

(** *** C66: the rows of the table *)
(** The type of the report, the error if there is one, and one row for each group of the result of the parser, in order,
    with the text of the group and its explanation, in which ends of lines are line breaks. *)
Theorem C66_table_rows :
  forall (pow : flt -> flt -> flt), pow_tame pow ->
  forall (sgn : bool) (input t : string), explain pow sgn input = Ok t ->
    exists p texts, parse sgn input default_groupLimit = Ok p
      /\ Forall2 (fun i x => Visitor_visitInfo (Ok "") (VisitorExplain pow) i = Ok x) (pr_groups p) texts
      /\ t = table (report_rows p texts).
Proof. exact explain_table. Qed.
Print Assumptions C66_table_rows.
Example C66_nonvacuous : exists t, explain pow_one true "METAR EGLL 010000Z 24008KT 9999 FEW010CB 20/10 Q1010 NOSIG" = Ok t
  /\ mentions "<tr><td>24008KT</td><td>Surface wind<br>Wind direction: 240 degrees(southwest)<br>Wind speed: 8 knots (4.1 m/s / 14.8 km/h / 9.2 mph)</td></tr>" t = true.
Proof. eexists. split; [vm_compute; reflexivity|vm_compute; reflexivity]. Qed.
(** The cells have no markup if the report has none, *)
Theorem C66_no_markup_partial :
  forall (pow : flt -> flt -> flt), pow_tame pow ->
  forall (sgn : bool) (input : string) (p : ParseResult), parse sgn input default_groupLimit = Ok p -> occurs "<" input = false ->
    forall i x, In i (pr_groups p) -> Visitor_visitInfo (Ok "") (VisitorExplain pow) i = Ok x ->
      occurs "<" (gi_rawString i) = false /\ occurs "<" x = false.
Proof. exact no_markup. Qed.
Print Assumptions C66_no_markup_partial.
(** but the markup of the report gets into the table. *)
Theorem C66_no_markup_refuted :
  forall (pow : flt -> flt -> flt) (sgn : bool), exists t, explain pow sgn "METAR EGLL 010000Z <b>" = Ok t
    /\ mentions "<td><b></td>" t = true.
Proof. exact markup_passes. Qed.
Print Assumptions C66_no_markup_refuted.

(** *** C67: no value is missing *)
(** The texts for values which cannot be had are never shown. *)
Theorem C67_no_unable :
  forall (pow : flt -> flt -> flt), pow_tame pow ->
  forall (sgn : bool) (input t : string), explain pow sgn input = Ok t -> occurs "[" input = false -> mentions "[unable" t = false.
Proof. exact no_unable. Qed.
Print Assumptions C67_no_unable.
Example C67_nonvacuous : exists t, explain pow_one true "METAR EGLL 010000Z 24008KT 9999 FEW010CB 20/10 Q1010 NOSIG" = Ok t
  /\ occurs "[" "METAR EGLL 010000Z 24008KT 9999 FEW010CB 20/10 Q1010 NOSIG" = false.
Proof. eexists. split; [vm_compute; reflexivity|vm_compute; reflexivity]. Qed.

(** *** C68: numbers with decimals *)
(** They are cut off: nearer to zero than the value, by less than one unit of the last digit. *)
Theorem C68_decimals_partial : forall (x : flt) (d : nat), (1 <= d <= 6)%nat -> shown_as d (roundTo x d) x.
Proof. exact round_is. Qed.
Print Assumptions C68_decimals_partial.
Example C68_nonvacuous : roundTo (flit (- 55) 10) 1 = "-5.5" /\ flt_value (flit (- 55) 10) <> None.
Proof. split; [vm_compute; reflexivity|vm_compute; discriminate]. Qed.
Theorem C68_temperature_partial :
  forall (t : Temperature) (v c f : flt) (s : string),
    Temperature_temperature t = Some v -> Temperature_toUnit t Temp_C = Some c -> Temperature_toUnit t Temp_F = Some f -> explainTemperature t = Ok s ->
    exists a b, shown_as 1 a c /\ shown_as 1 b f
      /\ s = (if flt_is_zero v && negb (precise t) then (if freezing t then "slightly less than " else "slightly more than ") else "")
             ++ a ++ " &deg;C / " ++ b ++ " &deg;F".
Proof. exact temperature_shown. Qed.
Print Assumptions C68_temperature_partial.
Theorem C68_pressure_partial :
  forall (p : Pressure) (h i m : flt) (s : string),
    Pressure_toUnit p HECTOPASCAL = Some h -> Pressure_toUnit p INCHES_HG = Some i -> Pressure_toUnit p MM_HG = Some m -> explainPressure p = Ok s ->
    exists a b c, shown_as 1 a h /\ shown_as 2 b i /\ shown_as 1 c m /\ s = a ++ " hPa / " ++ b ++ " inHg / " ++ c ++ " mmHg".
Proof. exact pressure_shown. Qed.
Print Assumptions C68_pressure_partial.
Theorem C68_precipitation_partial :
  forall (p : Precipitation) (v m i : flt) (s : string),
    precipValue p = Some v -> flt_is_zero v = false -> Precipitation_toUnit p MM = Some m -> Precipitation_toUnit p INCHES = Some i -> explainPrecipitation p = Ok s ->
    exists a b, shown_as 1 a m /\ shown_as 2 b i /\ s = a ++ " mm / " ++ b ++ " inches".
Proof. exact precipitation_shown. Qed.
Print Assumptions C68_precipitation_partial.
Theorem C68_wave_height_partial :
  forall (w : WaveHeight) (m f : flt) (s : string),
    whType w = Wh_WAVE_HEIGHT -> WaveHeight_toUnit w Wh_METERS = Some m -> WaveHeight_toUnit w Wh_FEET = Some f -> explainWaveHeight w = Ok s ->
    WaveHeight_isReported w = true -> exists a b, shown_as 1 a m /\ shown_as 1 b f /\ s = "wave height: " ++ a ++ " meters / " ++ b ++ " feet".
Proof. exact waves_shown. Qed.
Print Assumptions C68_wave_height_partial.
Theorem C68_friction_partial :
  forall (f : SurfaceFriction) (c : flt) (s : string),
    SurfaceFriction_coefficient f = Some c -> sfType f = Sf_SURFACE_FRICTION_REPORTED -> explainSurfaceFriction f = Ok s ->
    exists a, shown_as 2 a c /\ s = "friction coefficient " ++ a.
Proof. exact friction_shown. Qed.
Print Assumptions C68_friction_partial.
(** The nearest value is not shown: SLP123 is 1012.3 hPa. *)
Theorem C68_nearest_refuted :
  forall (pow : flt -> flt -> flt) (sgn : bool), exists t, explain pow sgn "METAR EGLL 010000Z 00000KT RMK SLP123" = Ok t
    /\ mentions "1012.2 hPa" t = true.
Proof. exact cut_not_rounded. Qed.
Print Assumptions C68_nearest_refuted.

(** *** C69: warnings about invalid groups *)
Theorem C69_validity_told :
  forall (pow : flt -> flt -> flt) (g : Group) (part : ReportPart) (raw s : string),
    Visitor_visit (Ok "") (VisitorExplain pow) g part raw = Ok s ->
    exists v, Group_isValid g = Ok v /\ prefix "Data in this group may be errorneous, incomplete or inconsistent" s = negb v.
Proof. exact validity_told. Qed.
Print Assumptions C69_validity_told.
Example C69_nonvacuous : exists s, Visitor_visit (Ok "") (VisitorExplain pow_one) (GLocation (mkLocation "EGLL")) RP_HEADER "EGLL" = Ok s.
Proof. eexists. vm_compute. reflexivity. Qed.

(** *** C70: whole numbers *)
Theorem C70_time_shown :
  forall (t : MetafTime) (s : string), (hourValue t < 100)%N -> (minuteValue t < 100)%N -> explainMetafTime t = Ok s ->
    exists day hh mm, numeral 2 hh (hourValue t) /\ numeral 2 mm (minuteValue t)
      /\ match dayValue t with Some d => exists dd, whole dd d /\ day = "day " ++ dd ++ ", " | None => day = "" end
      /\ s = day ++ hh ++ ":" ++ mm ++ " GMT".
Proof. exact time_shown. Qed.
Print Assumptions C70_time_shown.
Example C70_nonvacuous : explainMetafTime (mkTime (Some 7%N) 5%N 30%N) = Ok "day 7, 05:30 GMT".
Proof. vm_compute. reflexivity. Qed.
Theorem C70_runway_shown :
  forall (r : Runway) (s : string), (rNumber r < 100)%N -> explainRunway r = Ok s ->
    r = mkRunway 88 Rw_NONE /\ s = "all runways" \/ r = mkRunway 99 Rw_NONE /\ s = "same runway (repetition of last message)"
    \/ r <> mkRunway 88 Rw_NONE /\ r <> mkRunway 99 Rw_NONE
       /\ exists nn, numeral 2 nn (rNumber r) /\ s = "runway " ++ nn ++ designator_text (rDesignator r).
Proof. exact runway_told. Qed.
Print Assumptions C70_runway_shown.
(** The speed in its unit, and in the other three units with one decimal *)
Theorem C70_speed_shown :
  forall (v : Speed) (t : N) (k m h p : flt) (s : string),
    speedValue v = Some t -> Speed_toUnit v KNOTS = Some k -> Speed_toUnit v METERS_PER_SECOND = Some m ->
    Speed_toUnit v KILOMETERS_PER_HOUR = Some h -> Speed_toUnit v MILES_PER_HOUR = Some p -> explainSpeed v = Ok s ->
    exists n a b c d, whole n t /\ shown_as 1 a k /\ shown_as 1 b m /\ shown_as 1 c h /\ shown_as 1 d p
      /\ s = n ++ " " ++ speed_unit_name (speedUnit v) ++ " ("
        ++ match speedUnit v with
           | KNOTS => b ++ " m/s / " ++ c ++ " km/h / " ++ d ++ " mph"
           | METERS_PER_SECOND => a ++ " knots / " ++ c ++ " km/h / " ++ d ++ " mph"
           | KILOMETERS_PER_HOUR => a ++ " knots / " ++ b ++ " m/s / " ++ d ++ " mph"
           | MILES_PER_HOUR => a ++ " knots / " ++ b ++ " m/s / " ++ c ++ " km/h"
           end ++ ")".
Proof. exact speeds_shown. Qed.
Print Assumptions C70_speed_shown.
Theorem C70_direction_shown :
  forall (d : Direction) (b : bool) (s : string), dirType d = DT_VALUE_DEGREES -> explainDirection d b = Ok s ->
    exists n rest, whole n (dirDegrees d) /\ s = n ++ " degrees" ++ rest.
Proof. exact degrees_shown. Qed.
Print Assumptions C70_direction_shown.
(** Distances in metres or feet, *)
Theorem C70_distance_shown :
  forall (d : Distance) (n : N) (s : string),
    dist d = Some n -> distUnit d <> STATUTE_MILES -> (n <= 16777216)%N -> explainDistance d = Ok s ->
    (distModifier d = DM_NONE \/ distModifier d = DM_LESS_THAN \/ distModifier d = DM_MORE_THAN) ->
    exists a rest, whole a n /\ s = limit_sign (distModifier d) ++ a ++ " " ++ distance_unit_name (distUnit d) ++ " (" ++ rest.
Proof. exact distance_shown. Qed.
Print Assumptions C70_distance_shown.
(** and those of up to fifteen whole miles; the API counts miles by the ten thousandth. *)
Theorem C70_miles_shown_partial :
  forall (m : DistModifier) (v : N) (s : string), (v <= 15)%N -> (m = DM_NONE \/ m = DM_LESS_THAN \/ m = DM_MORE_THAN) ->
    explainDistance (mkDist m (Some (v * 10000)%N) STATUTE_MILES) = Ok s ->
    exists a rest, whole a v /\ s = limit_sign m ++ a ++ " statute miles (" ++ rest.
Proof. exact miles_shown. Qed.
Print Assumptions C70_miles_shown_partial.
Example C70_distances_nonvacuous :
  explainDistance (mkDist DM_MORE_THAN (Some 10000%N) METERS) = Ok "&gt;10000 meters (6 statute miles / 32808 feet)"
  /\ explainDistance (mkDist DM_LESS_THAN (Some 20000%N) STATUTE_MILES) = Ok "&lt;2 statute miles (3218 meters / 10560 feet)".
Proof. split; vm_compute; reflexivity. Qed.
(** More miles are not: 99SM is shown as 95 statute miles. *)
Theorem C70_miles_shown_refuted :
  forall (pow : flt -> flt -> flt) (sgn : bool), exists t, explain pow sgn "METAR EGLL 010000Z 00000KT 99SM" = Ok t
    /\ mentions "<td>99SM</td><td>Prevailing visibility is 95 statute miles" t = true.
Proof. exact miles_differ. Qed.
Print Assumptions C70_miles_shown_refuted.
(** A density altitude of a million feet is shown with an exponent. *)
Theorem C70_density_altitude_refuted :
  forall (pow : flt -> flt -> flt) (sgn : bool), exists t, explain pow sgn "METAR EGLL 010000Z 00000KT RMK DENSITY ALT 1000000FT" = Ok t
    /\ mentions "1e+06 feet" t = true.
Proof. exact altitude_exponent. Qed.
Print Assumptions C70_density_altitude_refuted.

(** *** C71: different codes are explained differently *)
Theorem C71_texts_differ :
  (forall a b, cardinalDirectionToString a = cardinalDirectionToString b -> a = b)
  /\ (forall a b, brakingActionToString a = brakingActionToString b -> a = b)
  /\ (forall a b, stateOfSeaSurfaceToString a = stateOfSeaSurfaceToString b -> a = b)
  /\ (forall a b, cloudAmountToString a = cloudAmountToString b -> a = b)
  /\ (forall a b, convectiveTypeToString a = convectiveTypeToString b -> a = b)
  /\ (forall a b, probabilityToString a = probabilityToString b -> a = b)
  /\ (forall a b, visTrendToString a = visTrendToString b -> a = b)
  /\ (forall a b, runwayStateDepositsToString a = runwayStateDepositsToString b -> a = b)
  /\ (forall a b, runwayStateExtentToString a = runwayStateExtentToString b -> a = b)
  /\ (forall a b, layerForecastGroupTypeToString a = layerForecastGroupTypeToString b -> a = b)
  /\ (forall a b, pressureTendencyTypeToString a = pressureTendencyTypeToString b -> a = b)
  /\ (forall a b, pressureTendencyTrendToString a = pressureTendencyTrendToString b -> a = b)
  /\ (forall a b, cloudLowLayerToString a = cloudLowLayerToString b -> a = b)
  /\ (forall a b, cloudMidLayerToString a = cloudMidLayerToString b -> a = b)
  /\ (forall a b, cloudHighLayerToString a = cloudHighLayerToString b -> a = b)
  /\ (forall a b, distanceMilesFractionToString a = distanceMilesFractionToString b -> a = b).
Proof. exact apart_all. Qed.
Print Assumptions C71_texts_differ.
Theorem C71_weather_texts_differ :
  forall (a b : WpWeather) (s : string), weatherPhenomenaWeatherToString a = Ok s -> weatherPhenomenaWeatherToString b = Ok s -> a = b.
Proof. exact weather_apart. Qed.
Print Assumptions C71_weather_texts_differ.
Theorem C71_cloud_type_texts_differ_partial :
  forall (a b : CtType), a <> Ct_NOT_REPORTED -> b <> Ct_NOT_REPORTED -> cloudTypeToString a = cloudTypeToString b -> a = b.
Proof. exact cloud_types_apart. Qed.
Print Assumptions C71_cloud_type_texts_differ_partial.
Example C71_nonvacuous : cloudTypeToString Ct_CUMULUS <> cloudTypeToString Ct_STRATUS /\ weatherPhenomenaWeatherToString W_RAIN = Ok "rain".
Proof. split; [vm_compute; discriminate|reflexivity]. Qed.
(** The text for a type which is not reported is that of cumulonimbus. *)
Theorem C71_cloud_type_refuted : cloudTypeToString Ct_NOT_REPORTED = cloudTypeToString Ct_CUMULONIMBUS.
Proof. exact cloud_types_same. Qed.
Print Assumptions C71_cloud_type_refuted.
