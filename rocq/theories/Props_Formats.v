(** C21: the value parsers recognise the formats stated in the documentation.

    Each theorem compares one parser with the regular expression in its comment in metaf.hpp. Where
    the parser deviates, the theorem says exactly by which texts, and a theorem with the suffix
    _refuted shows that the plain equivalence does not hold. *)
From Verif Require Import Prim Regex Float Values Weather SpecRegex SpecNumeral SpecMiles SpecCloud.
From Verif Require Import Pf_Formats Pf_Values4 Pf_Cloud Pf_Formats2.
Local Open Scope string_scope.

Theorem C21_temperature :
  forall s : string, accepted (Temperature_fromString s) <-> matches "(?:(M)?(\d\d))|//" s.
Proof. exact temperature_format. Qed.
Print Assumptions C21_temperature.
Example C21_temperature_nonvacuous : accepted (Temperature_fromString "M07").
Proof. eexists; vm_compute; reflexivity. Qed.

Theorem C21_remark_temperature :
  forall s : string, accepted (Temperature_fromRemarkString s) <-> matches "([01])(\d\d\d)" s.
Proof. exact remark_temperature_format. Qed.
Print Assumptions C21_remark_temperature.
Example C21_remark_temperature_nonvacuous : accepted (Temperature_fromRemarkString "1017").
Proof. eexists; vm_compute; reflexivity. Qed.

Theorem C21_runway :
  forall s : string, accepted (Runway_fromString s true) <-> matches "R(?:WY)?(\d\d)([RLC])?" s.
Proof. exact runway_format. Qed.
Print Assumptions C21_runway.
Example C21_runway_nonvacuous : accepted (Runway_fromString "RWY21L" true).
Proof. eexists; vm_compute; reflexivity. Qed.

Theorem C21_runway_short :
  forall s : string, accepted (Runway_fromString s false) <-> matches "R(\d\d)([RLC])?" s.
Proof. exact short_runway_format. Qed.
Print Assumptions C21_runway_short.
Example C21_runway_short_nonvacuous : accepted (Runway_fromString "R21" false).
Proof. eexists; vm_compute; reflexivity. Qed.

Theorem C21_time :
  forall s : string, accepted (MetafTime_fromStringDDHHMM s) <-> matches "(\d\d)?(\d\d)(\d\d)" s.
Proof. exact time_format. Qed.
Print Assumptions C21_time.
Example C21_time_nonvacuous : accepted (MetafTime_fromStringDDHHMM "311259").
Proof. eexists; vm_compute; reflexivity. Qed.

Theorem C21_day_hour :
  forall s : string, accepted (MetafTime_fromStringDDHH s) <-> matches "(\d\d)(\d\d)" s.
Proof. exact day_hour_format. Qed.
Print Assumptions C21_day_hour.
Example C21_day_hour_nonvacuous : accepted (MetafTime_fromStringDDHH "3112").
Proof. eexists; vm_compute; reflexivity. Qed.

(** The empty text is a speed that is not reported. *)
Theorem C21_speed :
  forall (s : string) (unit : SpeedUnit), accepted (Speed_fromString s unit) <-> matches "([1-9]?\d\d)|//" s \/ s = "".
Proof. exact speed_format. Qed.
Print Assumptions C21_speed.
Example C21_speed_nonvacuous : accepted (Speed_fromString "105" KNOTS).
Proof. eexists; vm_compute; reflexivity. Qed.

Theorem C21_speed_refuted :
  ~ (forall (s : string) (unit : SpeedUnit), accepted (Speed_fromString s unit) <-> matches "([1-9]?\d\d)|//" s).
Proof. exact speed_format_refuted. Qed.
Print Assumptions C21_speed_refuted.

Theorem C21_meters :
  forall s : string, accepted (Distance_fromMeterString s) <-> matches "(\d\d\d\d)|////" s.
Proof. exact meter_format. Qed.
Print Assumptions C21_meters.
Example C21_meters_nonvacuous : accepted (Distance_fromMeterString "0800").
Proof. eexists; vm_compute; reflexivity. Qed.

Theorem C21_height :
  forall s : string, accepted (Distance_fromHeightString s) <-> matches "(\d\d\d)|///" s.
Proof. exact height_format. Qed.
Print Assumptions C21_height.
Example C21_height_nonvacuous : accepted (Distance_fromHeightString "020").
Proof. eexists; vm_compute; reflexivity. Qed.

Theorem C21_runway_visual_range :
  forall (s : string) (feet : bool), accepted (Distance_fromRvrString s feet) <-> matches "([PM])?(\d\d\d\d)|////" s.
Proof. exact rvr_format. Qed.
Print Assumptions C21_runway_visual_range.
Example C21_runway_visual_range_nonvacuous : accepted (Distance_fromRvrString "P1500" true).
Proof. eexists; vm_compute; reflexivity. Qed.

Theorem C21_layer :
  forall s : string, accepted (Distance_fromLayerString s) <-> matches "(\d\d\d)(\d)" s.
Proof. exact layer_format. Qed.
Print Assumptions C21_layer.
Example C21_layer_nonvacuous : accepted (Distance_fromLayerString "0204").
Proof. eexists; vm_compute; reflexivity. Qed.

Theorem C21_kilometers :
  forall s : string, accepted (Distance_fromKmString s) <-> matches "(\d\d?)KM" s.
Proof. exact km_format. Qed.
Print Assumptions C21_kilometers.
Example C21_kilometers_nonvacuous : accepted (Distance_fromKmString "15KM").
Proof. eexists; vm_compute; reflexivity. Qed.

(** Fractions with zeroes are not miles: [improper_miles] says which. *)
Theorem C21_miles :
  forall s : string,
    accepted (Distance_fromMileString s false)
    <-> matches "([PM])?(\d?\d)(?:/(\d?\d))?SM|////SM" s /\ ~ improper_miles "SM" s.
Proof. exact mile_format_exact. Qed.
Print Assumptions C21_miles.
Example C21_miles_nonvacuous : accepted (Distance_fromMileString "M1/4SM" false).
Proof. eexists; vm_compute; reflexivity. Qed.

Theorem C21_remark_miles :
  forall s : string,
    accepted (Distance_fromMileString s true)
    <-> matches "([PM])?(\d?\d)(?:/(\d?\d))?" s /\ ~ improper_miles "" s.
Proof. exact remark_mile_format_exact. Qed.
Print Assumptions C21_remark_miles.
Example C21_remark_miles_nonvacuous : accepted (Distance_fromMileString "11/2" true).
Proof. eexists; vm_compute; reflexivity. Qed.

Theorem C21_miles_refuted :
  ~ (forall s : string, accepted (Distance_fromMileString s false)
       <-> matches "([PM])?(\d?\d)(?:/(\d?\d))?SM|////SM" s).
Proof. exact mile_format_refuted. Qed.
Print Assumptions C21_miles_refuted.

Theorem C21_degrees :
  forall s : string, accepted (Direction_fromDegreesString s) <-> matches "\d\d0|///|VRB" s.
Proof. exact degrees_format. Qed.
Print Assumptions C21_degrees.
Example C21_degrees_nonvacuous : accepted (Direction_fromDegreesString "230").
Proof. eexists; vm_compute; reflexivity. Qed.

Theorem C21_pressure :
  forall s : string, accepted (Pressure_fromString s) <-> matches "([QA])(?:(\d\d\d\d)|////)" s.
Proof. exact pressure_format. Qed.
Print Assumptions C21_pressure.
Example C21_pressure_nonvacuous : accepted (Pressure_fromString "A2992").
Proof. eexists; vm_compute; reflexivity. Qed.

Theorem C21_forecast_pressure :
  forall s : string, accepted (Pressure_fromForecastString s) <-> matches "QNH(\d\d\d\d)INS" s.
Proof. exact forecast_pressure_format. Qed.
Print Assumptions C21_forecast_pressure.
Example C21_forecast_pressure_nonvacuous : accepted (Pressure_fromForecastString "QNH2979INS").
Proof. eexists; vm_compute; reflexivity. Qed.

Theorem C21_sea_level_pressure :
  forall s : string, accepted (Pressure_fromSlpString s) <-> matches "SLP(\d\d\d)" s.
Proof. exact slp_format. Qed.
Print Assumptions C21_sea_level_pressure.
Example C21_sea_level_pressure_nonvacuous : accepted (Pressure_fromSlpString "SLP982").
Proof. eexists; vm_compute; reflexivity. Qed.

Theorem C21_ground_pressure :
  forall s : string, accepted (Pressure_fromQfeString s) <-> matches "QFE(\d\d\d)(/\d\d\d\d)?" s.
Proof. exact qfe_format. Qed.
Print Assumptions C21_ground_pressure.
Example C21_ground_pressure_nonvacuous : accepted (Pressure_fromQfeString "QFE755/1006").
Proof. eexists; vm_compute; reflexivity. Qed.

Theorem C21_pressure_tendency :
  forall s : string, accepted (Pressure_fromTendencyString s) <-> matches "(\d\d\d)|///" s.
Proof. exact tendency_format. Qed.
Print Assumptions C21_pressure_tendency.
Example C21_pressure_tendency_nonvacuous : accepted (Pressure_fromTendencyString "032").
Proof. eexists; vm_compute; reflexivity. Qed.

(** Two texts stand for an amount that is not reported. *)
Theorem C21_rainfall :
  forall s : string,
    accepted (Precipitation_fromRainfallString s) <-> matches "\d?\d\d\.\d" s \/ s = "///./" \/ s = "//./".
Proof. exact rainfall_format. Qed.
Print Assumptions C21_rainfall.
Example C21_rainfall_nonvacuous : accepted (Precipitation_fromRainfallString "012.5").
Proof. eexists; vm_compute; reflexivity. Qed.

Theorem C21_rainfall_refuted :
  ~ (forall s : string, accepted (Precipitation_fromRainfallString s) <-> matches "\d?\d\d\.\d" s).
Proof. exact rainfall_format_refuted. Qed.
Print Assumptions C21_rainfall_refuted.

(** Code 91 is reserved; two slashes stand for a depth that is not reported. *)
Theorem C21_deposits :
  forall s : string,
    accepted (Precipitation_fromRunwayDeposits s) <-> matches "\d\d" s /\ s <> "91" \/ s = "//".
Proof. exact deposits_format. Qed.
Print Assumptions C21_deposits.
Example C21_deposits_nonvacuous : accepted (Precipitation_fromRunwayDeposits "92").
Proof. eexists; vm_compute; reflexivity. Qed.

Theorem C21_deposits_refuted :
  ~ (forall s : string, accepted (Precipitation_fromRunwayDeposits s) <-> matches "\d\d" s).
Proof. exact deposits_format_refuted. Qed.
Print Assumptions C21_deposits_refuted.

Theorem C21_remark_precipitation :
  forall (s : string) (factor : flt) (unit : PrecipUnit) (allowNotReported : bool),
    accepted (Precipitation_fromRemarkString s factor unit allowNotReported)
    <-> matches "\d\d\d\d?" s \/ allowNotReported = true /\ (s = "///" \/ s = "////").
Proof. exact remark_precip_format. Qed.
Print Assumptions C21_remark_precipitation.
Example C21_remark_precipitation_nonvacuous : accepted (Precipitation_fromRemarkString "0015" (flit 1 100) INCHES false).
Proof. eexists; vm_compute; reflexivity. Qed.

Theorem C21_snow_increasing :
  forall s : string, accepted (Precipitation_fromSnincrString s) <-> matches "(\d?\d)/(\d?\d)" s.
Proof. exact snincr_format. Qed.
Print Assumptions C21_snow_increasing.
Example C21_snow_increasing_nonvacuous : accepted (Precipitation_fromSnincrString "2/10").
Proof. eexists; vm_compute; reflexivity. Qed.

(** Codes 96 to 98 are reserved. *)
Theorem C21_friction :
  forall s : string,
    accepted (SurfaceFriction_fromString s)
    <-> matches "\d\d" s /\ s <> "96" /\ s <> "97" /\ s <> "98" \/ s = "//".
Proof. exact friction_format. Qed.
Print Assumptions C21_friction.
Example C21_friction_nonvacuous : accepted (SurfaceFriction_fromString "95").
Proof. eexists; vm_compute; reflexivity. Qed.

Theorem C21_friction_refuted :
  ~ (forall s : string, accepted (SurfaceFriction_fromString s) <-> matches "\d\d" s).
Proof. exact friction_format_refuted. Qed.
Print Assumptions C21_friction_refuted.

Theorem C21_wave :
  forall s : string,
    accepted (WaveHeight_fromString s) <-> matches "S(\d)|H(\d?\d?\d)" s \/ s = "S/" \/ s = "H///".
Proof. exact wave_format. Qed.
Print Assumptions C21_wave.
Example C21_wave_nonvacuous : accepted (WaveHeight_fromString "H15").
Proof. eexists; vm_compute; reflexivity. Qed.

Theorem C21_wave_refuted :
  ~ (forall s : string, accepted (WaveHeight_fromString s) <-> matches "S(\d)|H(\d?\d?\d)" s).
Proof. exact wave_format_refuted. Qed.
Print Assumptions C21_wave_refuted.

(** Cloud types are taken from a list of codes. *)
Theorem C21_cloud_type :
  forall (s : string) (c : CloudType), CloudType_fromString s = Ok (Some c) <-> CloudText s c.
Proof. exact cloud_type_parse. Qed.
Print Assumptions C21_cloud_type.
Example C21_cloud_type_nonvacuous : accepted (CloudType_fromString "3TCU022").
Proof. eexists; vm_compute; reflexivity. Qed.

Theorem C21_cloud_type_format :
  forall s : string,
    accepted (CloudType_fromString s) ->
    matches "(\d)([A-Z][A-Z][A-Z]?)(\d\d\d)" s \/ matches "([A-Z][A-Z]+)(\d)" s.
Proof. exact cloud_format. Qed.
Print Assumptions C21_cloud_type_format.
Example C21_cloud_type_format_nonvacuous : accepted (CloudType_fromString "BLSN1").
Proof. eexists; vm_compute; reflexivity. Qed.

Theorem C21_cloud_type_refuted :
  ~ (forall s : string,
       accepted (CloudType_fromString s)
       <-> matches "(\d)([A-Z][A-Z][A-Z]?)(\d\d\d)" s \/ matches "([A-Z][A-Z]+)(\d)" s).
Proof. exact cloud_format_refuted. Qed.
Print Assumptions C21_cloud_type_refuted.
