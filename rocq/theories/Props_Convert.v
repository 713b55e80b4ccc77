(** C27, C43 and C44: conversion between units, miles with a fraction, heat index and wind chill. *)
From Coq Require Import ZArith NArith QArith Qabs.
From Verif Require Import Prim Float Values SpecNumeral SpecReal SpecUnits.
From Verif Require Import Pf_Units Pf_Miles Pf_Index Pf_Parsed.
Local Open Scope string_scope.
Local Open Scope N_scope.

(** ** C27 *)

(** Whatever the modifier and the unit, the whole miles and the fraction stand for a value of the
    documented list: the highest one not above the number of sixteenths nearest to the distance. *)
Theorem C27_miles :
  forall (md : DistModifier) (n : N) (u : DistUnit), n < 4294967296 ->
    exists i f, Distance_miles (mkDist md (Some n) u) = Ok (Some (i, f))
      /\ presents (16 * i + sixteenths_of f) (sixteenths n u).
Proof. exact miles_presents. Qed.
Print Assumptions C27_miles.
(** A distance of a documented number of sixteenths of a mile is returned as it is. *)
Theorem C27_exact :
  forall (md : DistModifier) (r : N), reportable r -> r <= 20000 ->
    exists i f, Distance_miles (mkDist md (Some (625 * r)) STATUTE_MILES) = Ok (Some (i, f))
      /\ 16 * i + sixteenths_of f = r.
Proof. exact miles_exact. Qed.
Print Assumptions C27_exact.
Theorem C27_not_reported :
  forall d : Distance, dist d = None -> Distance_miles d = Ok None.
Proof. exact miles_none. Qed.
Print Assumptions C27_not_reported.
Example C27_nonvacuous :
  Distance_miles (mkDist DM_NONE (Some 1200) METERS) = Ok (Some (0, F_3_4))
  /\ Distance_miles (mkDist DM_NONE (Some 17500) STATUTE_MILES) = Ok (Some (1, F_3_4))
  /\ reportable 28.
Proof.
  split; [vm_compute; reflexivity|]. split; [vm_compute; reflexivity|].
  right. left. split; [split; [discriminate|reflexivity]|]. exists 14. reflexivity.
Qed.

(** ** C43 *)

Theorem C43_speed_reported :
  forall (s : Speed) (u : SpeedUnit), (exists x, Speed_toUnit s u = Some x) <-> Speed_isReported s = true.
Proof. exact speed_reported. Qed.
Print Assumptions C43_speed_reported.
Theorem C43_distance_reported :
  forall (d : Distance) (u : DistUnit), (exists x, Distance_toUnit d u = Some x) <-> Distance_isValue d = true.
Proof. exact distance_reported. Qed.
Print Assumptions C43_distance_reported.
Theorem C43_pressure_reported :
  forall (p : Pressure) (u : PressureUnit), (exists x, Pressure_toUnit p u = Some x) <-> Pressure_isReported p = true.
Proof. exact pressure_reported. Qed.
Print Assumptions C43_pressure_reported.
Theorem C43_precipitation_reported :
  forall (p : Precipitation) (u : PrecipUnit),
    (exists x, Precipitation_toUnit p u = Some x) <-> Precipitation_isReported p = true.
Proof. exact precip_reported. Qed.
Print Assumptions C43_precipitation_reported.
Theorem C43_temperature_reported :
  forall (t : Temperature) (u : TempUnit),
    (exists x, Temperature_toUnit t u = Some x) <-> Temperature_isReported t = true.
Proof. exact temperature_reported. Qed.
Print Assumptions C43_temperature_reported.
Theorem C43_wave_height_reported :
  forall (w : WaveHeight) (u : WhUnit),
    (exists x, WaveHeight_toUnit w u = Some x) <-> WaveHeight_isReported w = true.
Proof. exact wave_reported. Qed.
Print Assumptions C43_wave_height_reported.

Theorem C43_speed_same_unit :
  forall (n : N) (u : SpeedUnit), Speed_toUnit (mkSpeed (Some n) u) u = Some (f32_of_N n).
Proof. exact speed_same. Qed.
Print Assumptions C43_speed_same_unit.
Theorem C43_distance_same_unit :
  forall d : Distance, Distance_toUnit d (distUnit d) = Distance_distance d.
Proof. exact distance_same. Qed.
Print Assumptions C43_distance_same_unit.
Theorem C43_pressure_same_unit :
  forall p : Pressure, Pressure_toUnit p (pressureUnit p) = pressureValue p.
Proof. exact pressure_same. Qed.
Print Assumptions C43_pressure_same_unit.
Theorem C43_precipitation_same_unit :
  forall p : Precipitation, Precipitation_toUnit p (precipUnit p) = precipValue p.
Proof. exact precip_same. Qed.
Print Assumptions C43_precipitation_same_unit.
Theorem C43_temperature_same_unit :
  forall t : Temperature, Temperature_toUnit t Temp_C = Temperature_temperature t.
Proof. exact temperature_same_unit. Qed.
Print Assumptions C43_temperature_same_unit.
Theorem C43_wave_height_same_unit :
  forall w : WaveHeight, WaveHeight_toUnit w Wh_METERS = WaveHeight_waveHeight w.
Proof. exact wave_same. Qed.
Print Assumptions C43_wave_height_same_unit.

Theorem C43_speed_converted :
  forall (n : N) (u0 u : SpeedUnit), n < 4294967296 ->
    exists x, Speed_toUnit (mkSpeed (Some n) u0) u = Some x
      /\ close_to (11 # 1000000) x (converted (parts n 1) (metres_per_hour_in u0) (metres_per_hour_in u)).
Proof. exact speed_accurate. Qed.
Print Assumptions C43_speed_converted.
Theorem C43_distance_converted :
  forall (md : DistModifier) (n : N) (u0 u : DistUnit), n < 4294967296 ->
    exists x, Distance_toUnit (mkDist md (Some n) u0) u = Some x
      /\ close_to (11 # 1000000) x (converted (stored n u0) (metres_in u0) (metres_in u)).
Proof. exact distance_accurate. Qed.
Print Assumptions C43_distance_converted.
Theorem C43_pressure_converted :
  forall (v : flt) (q : Q) (u0 u : PressureUnit), plain_float v -> flt_value v = Some q ->
    exists x, Pressure_toUnit (mkPressure (Some v) u0) u = Some x
      /\ close_to (1 # 50000) x (converted q (pascals_in u0) (pascals_in u)).
Proof. exact pressure_accurate. Qed.
Print Assumptions C43_pressure_converted.
Theorem C43_precipitation_converted :
  forall (v : flt) (q : Q) (u0 u : PrecipUnit), plain_float v -> flt_value v = Some q ->
    exists x, Precipitation_toUnit (mkPrecip (Some v) u0) u = Some x
      /\ close_to (1 # 100000) x (converted q (millimetres_in u0) (millimetres_in u)).
Proof. exact precipitation_accurate. Qed.
Print Assumptions C43_precipitation_converted.
Theorem C43_wave_height_converted :
  forall (t : WhType) (n : N) (u : WhUnit), n < 4294967296 ->
    exists x, WaveHeight_toUnit (mkWh t (Some n)) u = Some x
      /\ close_to (11 # 1000000) x (converted (parts n 10) 1 (wave_metres_in u)).
Proof. exact wave_accurate. Qed.
Print Assumptions C43_wave_height_converted.
Theorem C43_temperature_converted :
  forall (t : Temperature) (z : Z) (u : TempUnit), tempValue t = Some z -> (Z.abs z <= 100000)%Z ->
    exists x, Temperature_toUnit t u = Some x /\ within (1 # 10) x (in_scale u (degrees_of t z)).
Proof. exact temperature_accurate. Qed.
Print Assumptions C43_temperature_converted.

Theorem C43_speed_monotone :
  forall (n m : N) (u0 u : SpeedUnit) (x y : flt), n <= m -> m < 4294967296 ->
    Speed_toUnit (mkSpeed (Some n) u0) u = Some x -> Speed_toUnit (mkSpeed (Some m) u0) u = Some y ->
    not_above x y.
Proof. exact speed_monotone. Qed.
Print Assumptions C43_speed_monotone.
Theorem C43_distance_monotone :
  forall (md md' : DistModifier) (n m : N) (u0 u : DistUnit) (x y : flt), n <= m -> m < 4294967296 ->
    Distance_toUnit (mkDist md (Some n) u0) u = Some x -> Distance_toUnit (mkDist md' (Some m) u0) u = Some y ->
    not_above x y.
Proof. exact distance_monotone. Qed.
Print Assumptions C43_distance_monotone.
Theorem C43_pressure_monotone :
  forall (v w : flt) (u0 u : PressureUnit) (x y : flt), plain_float v -> plain_float w -> not_above v w ->
    Pressure_toUnit (mkPressure (Some v) u0) u = Some x -> Pressure_toUnit (mkPressure (Some w) u0) u = Some y ->
    not_above x y.
Proof. exact pressure_monotone. Qed.
Print Assumptions C43_pressure_monotone.
Theorem C43_precipitation_monotone :
  forall (v w : flt) (u0 u : PrecipUnit) (x y : flt), plain_float v -> plain_float w -> not_above v w ->
    Precipitation_toUnit (mkPrecip (Some v) u0) u = Some x -> Precipitation_toUnit (mkPrecip (Some w) u0) u = Some y ->
    not_above x y.
Proof. exact precipitation_monotone. Qed.
Print Assumptions C43_precipitation_monotone.
Theorem C43_wave_height_monotone :
  forall (t t' : WhType) (n m : N) (u : WhUnit) (x y : flt), n <= m -> m < 4294967296 ->
    WaveHeight_toUnit (mkWh t (Some n)) u = Some x -> WaveHeight_toUnit (mkWh t' (Some m)) u = Some y ->
    not_above x y.
Proof. exact wave_monotone. Qed.
Print Assumptions C43_wave_height_monotone.
Theorem C43_temperature_monotone :
  forall (t t' : Temperature) (z z' : Z) (u : TempUnit) (x y : flt), precise t = precise t' ->
    tempValue t = Some z -> tempValue t' = Some z' -> (Z.abs z <= 100000)%Z -> (Z.abs z' <= 100000)%Z ->
    (z <= z')%Z -> Temperature_toUnit t u = Some x -> Temperature_toUnit t' u = Some y -> not_above x y.
Proof. exact temperature_monotone. Qed.
Print Assumptions C43_temperature_monotone.
Example C43_nonvacuous :
  (exists x, Speed_toUnit (mkSpeed (Some 20) KNOTS) KILOMETERS_PER_HOUR = Some x
     /\ close_to (1 # 1000000) x (3704 # 100))
  /\ exists p x, Pressure_fromString "A2992" = Ok (Some p) /\ pressureValue p = Some x /\ plain_float x.
Proof.
  split.
  - eexists. split; [vm_compute; reflexivity|]. eexists. split; [vm_compute; reflexivity|]. vm_compute. discriminate.
  - eexists. eexists. split; [vm_compute; reflexivity|]. split; [reflexivity|].
    split; [vm_compute; reflexivity|]. eexists. split; [vm_compute; reflexivity|].
    right. split; vm_compute; discriminate.
Qed.

(** ** C44 *)

(** Given a relative humidity, the heat index is returned exactly from 27 degrees and from 40 to 100
    per cent. *)
Theorem C44_heat_index :
  forall (t : Temperature) (z : Z) (rh : flt) (q : Q),
    tempValue t = Some z -> (Qabs (degrees_of t z) <= 1000 # 1)%Q ->
    valid_binary 24 128 rh = true -> flt_value rh = Some q ->
    exists h, Temperature_heatIndexRH t rh = Ok h
      /\ (Temperature_isReported h = true
          <-> (27 # 1 <= degrees_of t z)%Q /\ (40 # 1 <= q <= 100 # 1)%Q).
Proof. exact heat_index_range. Qed.
Print Assumptions C44_heat_index.
Theorem C44_heat_index_not_reported :
  forall (t : Temperature) (rh : flt), tempValue t = None -> Temperature_heatIndexRH t rh = Ok Temperature_default.
Proof. exact heat_index_unreported. Qed.
Print Assumptions C44_heat_index_not_reported.
(** A humidity that is not a number passes both comparisons, and a number that is not one is then
    converted to int, which the standard leaves undefined. *)
Theorem C44_not_a_number_refuted :
  Temperature_heatIndexRH (mkTemp (Some 30%Z) false false) S754_nan = Bad UB.
Proof. exact heat_index_nan. Qed.
Print Assumptions C44_not_a_number_refuted.
Theorem C44_relative_humidity :
  forall (pow : flt -> flt -> flt) (air dew : Temperature) (za zd : Z), pow_sane pow ->
    tempValue air = Some za -> tempValue dew = Some zd ->
    (Qabs (degrees_of air za) <= 100 # 1)%Q -> (Qabs (degrees_of dew zd) <= 100 # 1)%Q ->
    exists rh q, Temperature_relativeHumidity pow air dew = Some rh
      /\ valid_binary 24 128 rh = true /\ flt_value rh = Some q
      /\ ((degrees_of air za < degrees_of dew zd)%Q -> (q == 100)%Q).
Proof. exact humidity_ok. Qed.
Print Assumptions C44_relative_humidity.
Theorem C44_relative_humidity_not_reported :
  forall (pow : flt -> flt -> flt) (air dew : Temperature), tempValue air = None \/ tempValue dew = None ->
    Temperature_relativeHumidity pow air dew = None.
Proof. exact humidity_none. Qed.
Print Assumptions C44_relative_humidity_not_reported.
Theorem C44_heat_index_of_dew_point :
  forall (pow : flt -> flt -> flt) (air dew : Temperature) (za zd : Z), pow_sane pow ->
    tempValue air = Some za -> tempValue dew = Some zd ->
    (Qabs (degrees_of air za) <= 100 # 1)%Q -> (Qabs (degrees_of dew zd) <= 100 # 1)%Q ->
    exists rh q h, Temperature_relativeHumidity pow air dew = Some rh /\ flt_value rh = Some q
      /\ Temperature_heatIndexDP pow air dew = Ok h
      /\ (Temperature_isReported h = true
          <-> (27 # 1 <= degrees_of air za)%Q /\ (40 # 1 <= q <= 100 # 1)%Q).
Proof. exact heat_index_dew. Qed.
Print Assumptions C44_heat_index_of_dew_point.
(** The wind chill is returned exactly up to 10 degrees and from 4.8 km/h. *)
Theorem C44_wind_chill :
  forall (pow : flt -> flt -> flt) (t : Temperature) (z : Z) (n : N) (u : SpeedUnit), pow_sane pow ->
    tempValue t = Some z -> (Qabs (degrees_of t z) <= 1000 # 1)%Q -> n <= 5000 ->
    exists h, Temperature_windChill pow t (mkSpeed (Some n) u) = Ok h
      /\ (Temperature_isReported h = true
          <-> (degrees_of t z <= 10 # 1)%Q
              /\ (48 # 10 <= converted (parts n 1) (metres_per_hour_in u) (metres_per_hour_in KILOMETERS_PER_HOUR))%Q).
Proof. exact wind_chill_range. Qed.
Print Assumptions C44_wind_chill.
Theorem C44_wind_chill_not_reported :
  forall (pow : flt -> flt -> flt) (t : Temperature) (w : Speed), tempValue t = None \/ speedValue w = None ->
    Temperature_windChill pow t w = Ok Temperature_default.
Proof. exact wind_chill_unreported. Qed.
Print Assumptions C44_wind_chill_not_reported.
(** For what is read from a report, neither runs into undefined behaviour. *)
Theorem C44_heat_index_of_report :
  forall (pow : flt -> flt -> flt) (sa sd : string) (air dew : Temperature), pow_sane pow ->
    temperature_text sa air -> temperature_text sd dew ->
    exists h, Temperature_heatIndexDP pow air dew = Ok h.
Proof. exact heat_index_parsed. Qed.
Print Assumptions C44_heat_index_of_report.
Theorem C44_wind_chill_of_report :
  forall (pow : flt -> flt -> flt) (s sw : string) (u : SpeedUnit) (air : Temperature) (wind : Speed), pow_sane pow ->
    temperature_text s air -> Speed_fromString sw u = Ok (Some wind) ->
    exists h, Temperature_windChill pow air wind = Ok h.
Proof. exact wind_chill_parsed. Qed.
Print Assumptions C44_wind_chill_of_report.
(** A function with the properties asked of pow exists, and the cases are met. *)
Example C44_nonvacuous :
  pow_sane (fun _ _ => f64_of_Z 1)
  /\ (exists h, Temperature_heatIndexRH (mkTemp (Some 30%Z) false false) (f32_of_Z 60) = Ok h
        /\ Temperature_isReported h = true)
  /\ temperature_text "M05" (mkTemp (Some (-5)%Z) true false)
  /\ temperature_text "0123" (mkTemp (Some 123%Z) false true).
Proof.
  split.
  - split; intros; eexists; (split; [vm_compute; reflexivity|]); (split; [vm_compute; reflexivity|]);
      split; vm_compute; discriminate.
  - split; [eexists; split; vm_compute; reflexivity|].
    split; [left; vm_compute; reflexivity|right; vm_compute; reflexivity].
Qed.
