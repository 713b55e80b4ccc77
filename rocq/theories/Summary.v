(** The weather summary of examples/summary.cpp: getCurrentWeather and everything it calls
    (14-700). The Emscripten bindings (702-818), which only give names to these functions and
    values in JavaScript, are not modelled. Definitions only. *)

From Verif Require Import Prim Regex Float Values Weather Groups1 Groups2 Groups3 Groups4 Parser.
Local Open Scope Z_scope.

(** summary.cpp:14 *)
Definition valueNotSpecified : Z := -250.

(** summary.cpp:16-22. The members and variables of type int that hold such a value are given the
    enumeration as type; the number is [sky_code]. *)
Inductive Sky := Sky_NOT_SPECIFIED | Sky_CLEAR | Sky_MOSTLY_CLEAR | Sky_MOSTLY_CLOUDY | Sky_OVERCAST.
Scheme Equality for Sky.
Definition sky_code (c : Sky) : Z :=
  match c with
  | Sky_NOT_SPECIFIED => -1 | Sky_CLEAR => 0 | Sky_MOSTLY_CLEAR => 1 | Sky_MOSTLY_CLOUDY => 2
  | Sky_OVERCAST => 3
  end.

(** summary.cpp:24-108; likewise, with [sw_code] for the number *)
Inductive SumWeather :=
| SW_NOT_SPECIFIED
| SW_PRECIPITATION_IN_VICINITY | SW_THUNDERSTORM_IN_VICINITY | SW_FOG_IN_VICINITY
| SW_VOLCANIC_ASH_IN_VICINITY | SW_DUST_WHIRLS_IN_VICINITY | SW_BLOWING_SNOW_IN_VICINITY
| SW_BLOWING_DUST_IN_VICINITY | SW_BLOWING_SAND_IN_VICINITY | SW_SANDSTORM_IN_VICINITY
| SW_DUSTSTORM_IN_VICINITY
| SW_DRIFTING_SAND | SW_DRIFTING_DUST | SW_DRIFTING_SNOW | SW_BLOWING_SAND | SW_BLOWING_DUST
| SW_BLOWING_SNOW | SW_BLOWING_SPRAY
| SW_FOG | SW_FOG_SHALLOW | SW_FOG_PARTIAL | SW_FOG_PATCHES | SW_FOG_FREEZING
| SW_ICE_CRYSTALS | SW_MIST | SW_SMOKE | SW_VOLCANIC_ASH | SW_WIDESPREAD_DUST | SW_SAND | SW_HAZE
| SW_DRIZZLE_LIGHT | SW_DRIZZLE_MODERATE | SW_DRIZZLE_HEAVY
| SW_RAIN_LIGHT | SW_RAIN_MODERATE | SW_RAIN_HEAVY
| SW_SNOW_LIGHT | SW_SNOW_MODERATE | SW_SNOW_HEAVY
| SW_ICE_PELLETS_LIGHT | SW_ICE_PELLETS_MODERATE | SW_ICE_PELLETS_HEAVY
| SW_SNOW_GRAINS_LIGHT | SW_SNOW_GRAINS_MODERATE | SW_SNOW_GRAINS_HEAVY
| SW_GRAUPEL | SW_HAIL
| SW_UNDETERMINED_LIGHT | SW_UNDETERMINED_MODERATE | SW_UNDETERMINED_HEAVY
| SW_RAIN_SHOWERS_LIGHT | SW_RAIN_SHOWERS_MODERATE | SW_RAIN_SHOWERS_HEAVY
| SW_SNOW_SHOWERS_LIGHT | SW_SNOW_SHOWERS_MODERATE | SW_SNOW_SHOWERS_HEAVY
| SW_ICE_PELLETS_SHOWERS_LIGHT | SW_ICE_PELLETS_SHOWERS_MODERATE | SW_ICE_PELLETS_SHOWERS_HEAVY
| SW_DRIZZLE_FREEZING_LIGHT | SW_DRIZZLE_FREEZING_MODERATE | SW_DRIZZLE_FREEZING_HEAVY
| SW_RAIN_FREEZING_LIGHT | SW_RAIN_FREEZING_MODERATE | SW_RAIN_FREEZING_HEAVY
| SW_THUNDERSTORM
| SW_DUST_WHIRLS | SW_SQUALLS | SW_FUNNEL_CLOUD | SW_TORNADO | SW_SANDSTORM | SW_SANDSTORM_HEAVY
| SW_DUSTSTORM | SW_DUSTSTORM_HEAVY.
Scheme Equality for SumWeather.
Definition all_SumWeather : list SumWeather :=
  [ SW_NOT_SPECIFIED;
    SW_PRECIPITATION_IN_VICINITY; SW_THUNDERSTORM_IN_VICINITY; SW_FOG_IN_VICINITY;
    SW_VOLCANIC_ASH_IN_VICINITY; SW_DUST_WHIRLS_IN_VICINITY; SW_BLOWING_SNOW_IN_VICINITY;
    SW_BLOWING_DUST_IN_VICINITY; SW_BLOWING_SAND_IN_VICINITY; SW_SANDSTORM_IN_VICINITY;
    SW_DUSTSTORM_IN_VICINITY;
    SW_DRIFTING_SAND; SW_DRIFTING_DUST; SW_DRIFTING_SNOW; SW_BLOWING_SAND; SW_BLOWING_DUST;
    SW_BLOWING_SNOW; SW_BLOWING_SPRAY;
    SW_FOG; SW_FOG_SHALLOW; SW_FOG_PARTIAL; SW_FOG_PATCHES; SW_FOG_FREEZING;
    SW_ICE_CRYSTALS; SW_MIST; SW_SMOKE; SW_VOLCANIC_ASH; SW_WIDESPREAD_DUST; SW_SAND; SW_HAZE;
    SW_DRIZZLE_LIGHT; SW_DRIZZLE_MODERATE; SW_DRIZZLE_HEAVY;
    SW_RAIN_LIGHT; SW_RAIN_MODERATE; SW_RAIN_HEAVY;
    SW_SNOW_LIGHT; SW_SNOW_MODERATE; SW_SNOW_HEAVY;
    SW_ICE_PELLETS_LIGHT; SW_ICE_PELLETS_MODERATE; SW_ICE_PELLETS_HEAVY;
    SW_SNOW_GRAINS_LIGHT; SW_SNOW_GRAINS_MODERATE; SW_SNOW_GRAINS_HEAVY;
    SW_GRAUPEL; SW_HAIL;
    SW_UNDETERMINED_LIGHT; SW_UNDETERMINED_MODERATE; SW_UNDETERMINED_HEAVY;
    SW_RAIN_SHOWERS_LIGHT; SW_RAIN_SHOWERS_MODERATE; SW_RAIN_SHOWERS_HEAVY;
    SW_SNOW_SHOWERS_LIGHT; SW_SNOW_SHOWERS_MODERATE; SW_SNOW_SHOWERS_HEAVY;
    SW_ICE_PELLETS_SHOWERS_LIGHT; SW_ICE_PELLETS_SHOWERS_MODERATE; SW_ICE_PELLETS_SHOWERS_HEAVY;
    SW_DRIZZLE_FREEZING_LIGHT; SW_DRIZZLE_FREEZING_MODERATE; SW_DRIZZLE_FREEZING_HEAVY;
    SW_RAIN_FREEZING_LIGHT; SW_RAIN_FREEZING_MODERATE; SW_RAIN_FREEZING_HEAVY;
    SW_THUNDERSTORM;
    SW_DUST_WHIRLS; SW_SQUALLS; SW_FUNNEL_CLOUD; SW_TORNADO; SW_SANDSTORM; SW_SANDSTORM_HEAVY;
    SW_DUSTSTORM; SW_DUSTSTORM_HEAVY ].
(** The enumerators have the values 0 to 73 in the order of their declaration. *)
Definition sw_code (w : SumWeather) : Z :=
  Z.of_nat (List.length
    ((fix before (l : list SumWeather) : list SumWeather :=
        match l with
        | [] => []
        | x :: t => if SumWeather_beq x w then [] else x :: before t
        end) all_SumWeather)).

(** summary.cpp:110-131 *)
Record CurrentWeather := mkCurrent
  { cw_windDirection : Z; cw_isWindVariable : bool; cw_windSpeed : Z; cw_gustSpeed : Z;
    cw_visibility : Z; cw_cloud : Sky; cw_isStormClouds : bool; cw_weather : list SumWeather;
    cw_airTemperature : Z; cw_perceivedTemperature : Z; cw_airTemperatureHigh : Z;
    cw_airTemperatureLow : Z; cw_relativeHumidity : Z; cw_atmosphericPressure : Z;
    cw_updateYear : Z; cw_updateMonth : Z; cw_updateDay : Z; cw_updateHour : Z;
    cw_updateMinute : Z }.
Definition cw_default : CurrentWeather :=
  mkCurrent valueNotSpecified false valueNotSpecified valueNotSpecified valueNotSpecified
    Sky_NOT_SPECIFIED false [] valueNotSpecified valueNotSpecified valueNotSpecified
    valueNotSpecified valueNotSpecified valueNotSpecified valueNotSpecified valueNotSpecified
    valueNotSpecified valueNotSpecified valueNotSpecified.

(** Assignments to members *)
Definition cw_set_wind (w : CurrentWeather) (dir : Z) (vrb : bool) (spd gust : Z) : CurrentWeather :=
  mkCurrent dir vrb spd gust (cw_visibility w) (cw_cloud w) (cw_isStormClouds w) (cw_weather w)
    (cw_airTemperature w) (cw_perceivedTemperature w) (cw_airTemperatureHigh w)
    (cw_airTemperatureLow w) (cw_relativeHumidity w) (cw_atmosphericPressure w) (cw_updateYear w)
    (cw_updateMonth w) (cw_updateDay w) (cw_updateHour w) (cw_updateMinute w).
Definition cw_set_visibility (w : CurrentWeather) (v : Z) : CurrentWeather :=
  mkCurrent (cw_windDirection w) (cw_isWindVariable w) (cw_windSpeed w) (cw_gustSpeed w) v
    (cw_cloud w) (cw_isStormClouds w) (cw_weather w) (cw_airTemperature w)
    (cw_perceivedTemperature w) (cw_airTemperatureHigh w) (cw_airTemperatureLow w)
    (cw_relativeHumidity w) (cw_atmosphericPressure w) (cw_updateYear w) (cw_updateMonth w)
    (cw_updateDay w) (cw_updateHour w) (cw_updateMinute w).
Definition cw_set_cloud (w : CurrentWeather) (c : Sky) (storm : bool) : CurrentWeather :=
  mkCurrent (cw_windDirection w) (cw_isWindVariable w) (cw_windSpeed w) (cw_gustSpeed w)
    (cw_visibility w) c storm (cw_weather w) (cw_airTemperature w) (cw_perceivedTemperature w)
    (cw_airTemperatureHigh w) (cw_airTemperatureLow w) (cw_relativeHumidity w)
    (cw_atmosphericPressure w) (cw_updateYear w) (cw_updateMonth w) (cw_updateDay w)
    (cw_updateHour w) (cw_updateMinute w).
Definition cw_add_weather (w : CurrentWeather) (l : list SumWeather) : CurrentWeather :=
  mkCurrent (cw_windDirection w) (cw_isWindVariable w) (cw_windSpeed w) (cw_gustSpeed w)
    (cw_visibility w) (cw_cloud w) (cw_isStormClouds w) (cw_weather w ++ l) (cw_airTemperature w)
    (cw_perceivedTemperature w) (cw_airTemperatureHigh w) (cw_airTemperatureLow w)
    (cw_relativeHumidity w) (cw_atmosphericPressure w) (cw_updateYear w) (cw_updateMonth w)
    (cw_updateDay w) (cw_updateHour w) (cw_updateMinute w).
Definition cw_set_temperature (w : CurrentWeather) (t perceived rh : Z) : CurrentWeather :=
  mkCurrent (cw_windDirection w) (cw_isWindVariable w) (cw_windSpeed w) (cw_gustSpeed w)
    (cw_visibility w) (cw_cloud w) (cw_isStormClouds w) (cw_weather w) t perceived
    (cw_airTemperatureHigh w) (cw_airTemperatureLow w) rh (cw_atmosphericPressure w)
    (cw_updateYear w) (cw_updateMonth w) (cw_updateDay w) (cw_updateHour w) (cw_updateMinute w).
Definition cw_set_pressure (w : CurrentWeather) (p : Z) : CurrentWeather :=
  mkCurrent (cw_windDirection w) (cw_isWindVariable w) (cw_windSpeed w) (cw_gustSpeed w)
    (cw_visibility w) (cw_cloud w) (cw_isStormClouds w) (cw_weather w) (cw_airTemperature w)
    (cw_perceivedTemperature w) (cw_airTemperatureHigh w) (cw_airTemperatureLow w)
    (cw_relativeHumidity w) p (cw_updateYear w) (cw_updateMonth w) (cw_updateDay w)
    (cw_updateHour w) (cw_updateMinute w).
Definition cw_set_forecast (w : CurrentWeather) (low high : Z) : CurrentWeather :=
  mkCurrent (cw_windDirection w) (cw_isWindVariable w) (cw_windSpeed w) (cw_gustSpeed w)
    (cw_visibility w) (cw_cloud w) (cw_isStormClouds w) (cw_weather w) (cw_airTemperature w)
    (cw_perceivedTemperature w) high low (cw_relativeHumidity w) (cw_atmosphericPressure w)
    (cw_updateYear w) (cw_updateMonth w) (cw_updateDay w) (cw_updateHour w) (cw_updateMinute w).
Definition cw_set_update (w : CurrentWeather) (y m d hr mn : Z) : CurrentWeather :=
  mkCurrent (cw_windDirection w) (cw_isWindVariable w) (cw_windSpeed w) (cw_gustSpeed w)
    (cw_visibility w) (cw_cloud w) (cw_isStormClouds w) (cw_weather w) (cw_airTemperature w)
    (cw_perceivedTemperature w) (cw_airTemperatureHigh w) (cw_airTemperatureLow w)
    (cw_relativeHumidity w) (cw_atmosphericPressure w) y m d hr mn.

(** summary.cpp:135-152 *)
Definition sum_temperatureUnit (imperial : bool) : TempUnit := if imperial then Temp_F else Temp_C.
Definition sum_pressureUnit (imperial : bool) : PressureUnit :=
  if imperial then INCHES_HG else HECTOPASCAL.
Definition sum_visibilityUnit (imperial : bool) : DistUnit :=
  if imperial then STATUTE_MILES else METERS.
Definition sum_speedUnit (imperial : bool) : SpeedUnit :=
  if imperial then MILES_PER_HOUR else KILOMETERS_PER_HOUR.

(** Implicit conversion float -> int of an assignment [int = float]: the fraction is dropped, and the
    behaviour is undefined when the result does not fit. *)
Definition trunc_to_int (x : flt) : res Z :=
  match trunc_flt x with
  | Some z => if (-2147483648 <=? z) && (z <=? 2147483647) then Ok z else Bad UB
  | None => Bad UB
  end.
(** [if (const auto v = ...; v.has_value()) member = v.value();] *)
Definition assign_flt (old : Z) (v : option flt) : res Z :=
  match v with Some x => trunc_to_int x | None => Ok old end.

(** summary.cpp:154-181; the condition [prev != OVERCAST || prev != MOSTLY_CLOUDY] is kept *)
Definition cloudFromCloudGroupAmount (prev : Sky) (a : ClAmount) : Sky :=
  match a with
  | Am_NCD | Am_NONE_CLR | Am_NONE_SKC | Am_VARIABLE_FEW_SCATTERED =>
    if Sky_beq prev Sky_NOT_SPECIFIED then Sky_CLEAR else prev
  | Am_NSC | Am_FEW | Am_SCATTERED | Am_VARIABLE_SCATTERED_BROKEN | Am_VARIABLE_BROKEN_OVERCAST =>
    if negb (Sky_beq prev Sky_OVERCAST) || negb (Sky_beq prev Sky_MOSTLY_CLOUDY)
    then Sky_MOSTLY_CLEAR else prev
  | Am_BROKEN => if negb (Sky_beq prev Sky_OVERCAST) then Sky_MOSTLY_CLOUDY else prev
  | Am_OVERCAST | Am_OBSCURED => Sky_OVERCAST
  | _ => prev
  end.

(** summary.cpp:183-194 *)
Definition sum_phenomena (q : WpQualifier) (light moderate heavy : SumWeather) : SumWeather :=
  match q with
  | Q_LIGHT => light | Q_MODERATE => moderate | Q_HEAVY => heavy | _ => moderate
  end.
(** summary.cpp:196-224 *)
Definition weatherRain (q : WpQualifier) (d : WpDescriptor) : SumWeather :=
  match d with
  | D_FREEZING =>
    sum_phenomena q SW_RAIN_FREEZING_LIGHT SW_RAIN_FREEZING_MODERATE SW_RAIN_FREEZING_HEAVY
  | D_SHOWERS => sum_phenomena q SW_RAIN_SHOWERS_LIGHT SW_RAIN_SHOWERS_MODERATE SW_RAIN_SHOWERS_HEAVY
  | D_NONE => sum_phenomena q SW_RAIN_LIGHT SW_RAIN_MODERATE SW_RAIN_HEAVY
  | _ => sum_phenomena q SW_RAIN_LIGHT SW_RAIN_MODERATE SW_RAIN_HEAVY
  end.
(** summary.cpp:226-254 *)
Definition weatherSnow (q : WpQualifier) (d : WpDescriptor) : SumWeather :=
  match d with
  | D_SHOWERS => sum_phenomena q SW_SNOW_SHOWERS_LIGHT SW_SNOW_SHOWERS_MODERATE SW_SNOW_SHOWERS_HEAVY
  | D_NONE => sum_phenomena q SW_SNOW_LIGHT SW_SNOW_MODERATE SW_SNOW_HEAVY
  | D_LOW_DRIFTING => SW_DRIFTING_SNOW
  | D_BLOWING => SW_BLOWING_SNOW
  | _ => sum_phenomena q SW_SNOW_LIGHT SW_SNOW_MODERATE SW_SNOW_HEAVY
  end.
(** summary.cpp:256-264 *)
Definition weatherFog (d : WpDescriptor) : SumWeather :=
  match d with
  | D_SHALLOW => SW_FOG_SHALLOW | D_PARTIAL => SW_FOG_PARTIAL | D_PATCHES => SW_FOG_PATCHES
  | D_FREEZING => SW_FOG_FREEZING | _ => SW_FOG
  end.
(** summary.cpp:266-378; the switch has no default: for a value which is no enumerator the function
    ends without a return statement, and using its result is undefined. *)
Definition phenomenaFromWeatherGroup (q : WpQualifier) (d : WpDescriptor) (w : WpWeather)
  : res SumWeather :=
  match w with
  | W_NOT_REPORTED => Ok SW_NOT_SPECIFIED
  | W_DRIZZLE =>
    Ok (if WpDescriptor_beq d D_FREEZING
        then sum_phenomena q SW_DRIZZLE_FREEZING_LIGHT SW_DRIZZLE_FREEZING_MODERATE
               SW_DRIZZLE_FREEZING_HEAVY
        else sum_phenomena q SW_DRIZZLE_LIGHT SW_DRIZZLE_MODERATE SW_DRIZZLE_HEAVY)
  | W_RAIN => Ok (weatherRain q d)
  | W_SNOW => Ok (weatherSnow q d)
  | W_SNOW_GRAINS =>
    Ok (sum_phenomena q SW_SNOW_GRAINS_LIGHT SW_SNOW_GRAINS_MODERATE SW_SNOW_GRAINS_HEAVY)
  | W_ICE_CRYSTALS => Ok SW_ICE_CRYSTALS
  | W_ICE_PELLETS =>
    Ok (if WpDescriptor_beq d D_SHOWERS
        then sum_phenomena q SW_ICE_PELLETS_SHOWERS_LIGHT SW_ICE_PELLETS_SHOWERS_MODERATE
               SW_ICE_PELLETS_SHOWERS_HEAVY
        else sum_phenomena q SW_ICE_PELLETS_SHOWERS_LIGHT SW_ICE_PELLETS_SHOWERS_MODERATE
               SW_ICE_PELLETS_SHOWERS_HEAVY)
  | W_HAIL => Ok SW_HAIL
  | W_SMALL_HAIL => Ok SW_GRAUPEL
  | W_UNDETERMINED =>
    Ok (sum_phenomena q SW_UNDETERMINED_LIGHT SW_UNDETERMINED_MODERATE SW_UNDETERMINED_HEAVY)
  | W_MIST => Ok SW_MIST
  | W_FOG => Ok (weatherFog d)
  | W_SMOKE => Ok SW_SMOKE
  | W_VOLCANIC_ASH => Ok SW_VOLCANIC_ASH
  | W_DUST =>
    Ok (if WpDescriptor_beq d D_LOW_DRIFTING then SW_DRIFTING_DUST else
        if WpDescriptor_beq d D_BLOWING then SW_BLOWING_DUST else SW_WIDESPREAD_DUST)
  | W_SAND =>
    Ok (if WpDescriptor_beq d D_LOW_DRIFTING then SW_DRIFTING_SAND else
        if WpDescriptor_beq d D_BLOWING then SW_BLOWING_SAND else SW_SAND)
  | W_HAZE => Ok SW_HAZE
  | W_SPRAY => Ok SW_BLOWING_SPRAY
  | W_DUST_WHIRLS => Ok SW_DUST_WHIRLS
  | W_SQUALLS => Ok SW_SQUALLS
  | W_FUNNEL_CLOUD => Ok (if WpQualifier_beq q Q_HEAVY then SW_TORNADO else SW_FUNNEL_CLOUD)
  | W_SANDSTORM => Ok (if WpQualifier_beq q Q_HEAVY then SW_SANDSTORM_HEAVY else SW_SANDSTORM)
  | W_DUSTSTORM => Ok (if WpQualifier_beq q Q_HEAVY then SW_DUSTSTORM_HEAVY else SW_DUSTSTORM)
  | W_other _ => Bad UB
  end.
(** summary.cpp:380-428: the second switch, reached when the first one does not return *)
Definition phenomenaInVicinity_weather (w : WpWeather) : SumWeather :=
  match w with
  | W_FOG => SW_FOG_IN_VICINITY
  | W_VOLCANIC_ASH => SW_VOLCANIC_ASH_IN_VICINITY
  | W_DUST_WHIRLS => SW_DUST_WHIRLS_IN_VICINITY
  | W_DUSTSTORM => SW_DUSTSTORM_IN_VICINITY
  | W_SANDSTORM => SW_SANDSTORM_IN_VICINITY
  | _ => SW_PRECIPITATION_IN_VICINITY
  end.
Definition phenomenaInVicinity (d : WpDescriptor) (w : WpWeather) : SumWeather :=
  match d with
  | D_SHOWERS => SW_PRECIPITATION_IN_VICINITY
  | D_THUNDERSTORM => SW_THUNDERSTORM_IN_VICINITY
  | D_BLOWING =>
    match w with
    | W_DUST => SW_BLOWING_DUST_IN_VICINITY
    | W_SAND => SW_BLOWING_SAND_IN_VICINITY
    | W_SNOW => SW_BLOWING_SNOW_IN_VICINITY
    | _ => phenomenaInVicinity_weather w
    end
  | _ => phenomenaInVicinity_weather w
  end.

(** summary.cpp:449-452: the loop over the weather of one phenomenon *)
Fixpoint phenomena_loop (q : WpQualifier) (d : WpDescriptor) (l : list WpWeather)
  : res (list SumWeather) :=
  match l with
  | [] => Ok []
  | w :: t =>
    let! c := phenomenaFromWeatherGroup q d w in
    let! r := phenomena_loop q d t in
    Ok (c :: r)
  end.
(** summary.cpp:430-454 *)
Definition weatherFromWeatherPhenomena (q : WpQualifier) (d : WpDescriptor) (l : list WpWeather)
  : res (list SumWeather) :=
  if WpQualifier_beq q Q_VICINITY then
    let w := match l with [] => W_NOT_REPORTED | w :: _ => w end in
    Ok [phenomenaInVicinity d w]
  else if WpDescriptor_beq d D_THUNDERSTORM then
    let! r := phenomena_loop q D_NONE l in
    Ok (SW_THUNDERSTORM :: r)
  else phenomena_loop q d l.
(** summary.cpp:527-536 and 621-630: the loop over the phenomena of one group *)
Fixpoint weather_loop (l : list WeatherPhenomena) : res (list SumWeather) :=
  match l with
  | [] => Ok []
  | p :: t =>
    let! a := weatherFromWeatherPhenomena (Wp_qualifier p) (Wp_descriptor p) (Wp_weather p) in
    let! b := weather_loop t in
    Ok (a ++ b)%list
  end.

(** summary.cpp:456-461; [sgn] tells whether plain char is signed *)
Definition parseReport (sgn : bool) (report : string) (type : ReportType) : res (list Group) :=
  let! p := parse sgn report default_groupLimit in
  if negb (ReportType_beq (md_type (pr_metadata p)) type)
     || negb (ReportError_beq (md_error (pr_metadata p)) RE_NONE)
  then Ok []
  else Ok (map gi_group (pr_groups p)).

(** summary.cpp:472-478 and 582-588 *)
Definition summary_keyword (imperial : bool) (g : KeywordGroup) (w : CurrentWeather)
  : res CurrentWeather :=
  if KwType_beq (kw_t g) Kw_CAVOK then
    let! v := assign_flt (cw_visibility w)
                (Distance_toUnit (Distance_cavokVisibility false) (sum_visibilityUnit imperial)) in
    Ok (cw_set_cloud (cw_set_visibility w v) Sky_MOSTLY_CLEAR (cw_isStormClouds w))
  else Ok w.
(** summary.cpp:489-501 and 593-607, without the assignment to the local variable windSpeed *)
Definition summary_wind (imperial : bool) (g : WindGroup) (w : CurrentWeather) : res CurrentWeather :=
  let dir := match Direction_degrees (wi_dir g) with
             | Some n => i32_of_u32 n
             | None => cw_windDirection w
             end in
  let vrb := if DirType_beq (dirType (wi_dir g)) DT_VARIABLE then true else cw_isWindVariable w in
  let! spd := assign_flt (cw_windSpeed w) (Speed_toUnit (wi_speed g) (sum_speedUnit imperial)) in
  let! gust := assign_flt (cw_gustSpeed w) (Speed_toUnit (wi_gust g) (sum_speedUnit imperial)) in
  Ok (cw_set_wind w dir vrb spd gust).
(** summary.cpp:516-522 and 613-619 *)
Definition summary_cloud (g : CloudGroup) (w : CurrentWeather) : CurrentWeather :=
  cw_set_cloud w (cloudFromCloudGroupAmount (cw_cloud w) (cl_amnt g))
    (if ClConv_beq (cl_conv g) Cv_CUMULONIMBUS then true else cw_isStormClouds w).
(** summary.cpp:539-559 *)
Definition summary_temperature (pow : flt -> flt -> flt) (imperial : bool) (wind : Speed)
  (g : TemperatureGroup) (w : CurrentWeather) : res CurrentWeather :=
  let unit := sum_temperatureUnit imperial in
  let! t := assign_flt (cw_airTemperature w) (Temperature_toUnit (tg_t g) unit) in
  let! p := assign_flt (cw_perceivedTemperature w) (Temperature_toUnit (tg_t g) unit) in
  let! rh := assign_flt (cw_relativeHumidity w) (TemperatureGroup_relativeHumidity pow g) in
  let! chill := Temperature_windChill pow (tg_t g) wind in
  let! p := assign_flt p (Temperature_toUnit chill unit) in
  let! heat := Temperature_heatIndexDP pow (tg_t g) (tg_dp g) in
  let! p := assign_flt p (Temperature_toUnit heat unit) in
  Ok (cw_set_temperature w t p rh).
(** summary.cpp:561-569 *)
Definition summary_pressure (imperial : bool) (g : PressureGroup) (w : CurrentWeather)
  : res CurrentWeather :=
  if PgType_beq (pg_t g) Pg_OBSERVED_QNH then
    let unit := sum_pressureUnit imperial in
    let p := match Pressure_toUnit (pg_p g) unit with
             | Some x => Some (if PressureUnit_beq unit INCHES_HG
                               then f32_mul x (f32_of_Z 100) else x)
             | None => None
             end in
    let! v := assign_flt (cw_atmosphericPressure w) p in
    Ok (cw_set_pressure w v)
  else Ok w.
(** summary.cpp:485-487 *)
Definition is_surface_wind (t : WiType) : bool :=
  match t with
  | Wi_SURFACE_WIND | Wi_SURFACE_WIND_CALM | Wi_SURFACE_WIND_WITH_VARIABLE_SECTOR => true
  | _ => false
  end.
(** summary.cpp:506-508 *)
Definition is_prevailing (t : ViType) : bool :=
  match t with Vi_PREVAILING | Vi_PREVAILING_NDV => true | _ => false end.

(** summary.cpp:469-570, the loop from the given state of [result] and [windSpeed] *)
Fixpoint metar_loop (pow : flt -> flt -> flt) (imperial : bool) (wind : Speed) (gs : list Group)
  (w : CurrentWeather) : res CurrentWeather :=
  match gs with
  | [] => Ok w
  | GKeyword g :: t =>
    let! w := summary_keyword imperial g w in metar_loop pow imperial wind t w
  | GTrend _ :: _ => Ok w
  | GWind g :: t =>
    if is_surface_wind (wi_type g) then
      let! w := summary_wind imperial g w in metar_loop pow imperial (wi_speed g) t w
    else metar_loop pow imperial wind t w
  | GVisibility g :: t =>
    let! v := if is_prevailing (vi_type g)
              then assign_flt (cw_visibility w)
                     (Distance_toUnit (VisibilityGroup_visibility g) (sum_visibilityUnit imperial))
              else Ok (cw_visibility w) in
    metar_loop pow imperial wind t (cw_set_visibility w v)
  | GCloud g :: t => metar_loop pow imperial wind t (summary_cloud g w)
  | GWeather g :: t =>
    if WxType_beq (wx_t g) Wx_CURRENT then
      let! l := weather_loop (WeatherGroup_weatherPhenomena g) in
      metar_loop pow imperial wind t (cw_add_weather w l)
    else metar_loop pow imperial wind t w
  | GTemperature g :: t =>
    let! w := summary_temperature pow imperial wind g w in metar_loop pow imperial wind t w
  | GPressure g :: t =>
    let! w := summary_pressure imperial g w in metar_loop pow imperial wind t w
  | _ :: t => metar_loop pow imperial wind t w
  end.
(** summary.cpp:463-572 *)
Definition currentWeatherFromMetar (pow : flt -> flt -> flt) (imperial : bool) (gs : list Group)
  : res CurrentWeather := metar_loop pow imperial Speed_default gs cw_default.

(** summary.cpp:579-632, the loop; [n] is trendCounter. The local variable windSpeed is only
    assigned and is left out. *)
Fixpoint taf_loop (imperial : bool) (n : nat) (gs : list Group) (w : CurrentWeather)
  : res CurrentWeather :=
  match gs with
  | [] => Ok w
  | GKeyword g :: t => let! w := summary_keyword imperial g w in taf_loop imperial n t w
  | GTrend _ :: t => if Nat.ltb 1 (S n) then Ok w else taf_loop imperial (S n) t w
  | GWind g :: t => let! w := summary_wind imperial g w in taf_loop imperial n t w
  | GVisibility g :: t =>
    let! v := assign_flt (cw_visibility w)
                (Distance_toUnit (VisibilityGroup_visibility g) (sum_visibilityUnit imperial)) in
    taf_loop imperial n t (cw_set_visibility w v)
  | GCloud g :: t => taf_loop imperial n t (summary_cloud g w)
  | GWeather g :: t =>
    let! l := weather_loop (WeatherGroup_weatherPhenomena g) in
    taf_loop imperial n t (cw_add_weather w l)
  | _ :: t => taf_loop imperial n t w
  end.
(** summary.cpp:574-634 *)
Definition currentWeatherFromTaf (imperial : bool) (gs : list Group) : res CurrentWeather :=
  taf_loop imperial 0 gs cw_default.

(** summary.cpp:642-649, the loop *)
Fixpoint minmax_loop (gs : list Group) (low high : Temperature) : Temperature * Temperature :=
  match gs with
  | [] => (low, high)
  | GMinMaxTemperature g :: t => minmax_loop t (mm_minTemp g) (mm_maxTemp g)
  | _ :: t => minmax_loop t low high
  end.
(** summary.cpp:636-656 *)
Definition temperatureForecastFromTaf (w : CurrentWeather) (gs : list Group) (imperial : bool)
  : res CurrentWeather :=
  let unit := sum_temperatureUnit imperial in
  let (minTemp, maxTemp) := minmax_loop gs Temperature_default Temperature_default in
  let! low := assign_flt (cw_airTemperatureLow w) (Temperature_toUnit minTemp unit) in
  let! high := assign_flt (cw_airTemperatureHigh w) (Temperature_toUnit maxTemp unit) in
  Ok (cw_set_forecast w low high).

(** Implicit conversion int -> unsigned int: modulo 2^32 *)
Definition u32_of_int (z : Z) : N := Z.to_N (z mod 4294967296).
(** summary.cpp:658-677; the conversions unsigned int -> int of the assignments are modulo 2^32 *)
Fixpoint reportReleaseTime (w : CurrentWeather) (gs : list Group) (year month day : Z)
  : CurrentWeather :=
  match gs with
  | [] => w
  | GReportTime g :: t =>
    let currDate := mkDate (u32_of_int year) (u32_of_int month) (u32_of_int day) in
    let reportDate := MetafTime_dateBeforeRef (rt_t g) currDate in
    reportReleaseTime
      (cw_set_update w (i32_of_u32 (date_year reportDate)) (i32_of_u32 (date_month reportDate))
         (i32_of_u32 (date_day reportDate)) (i32_of_u32 (hourValue (rt_t g)))
         (i32_of_u32 (minuteValue (rt_t g)))) t year month day
  | _ :: t => reportReleaseTime w t year month day
  end.

(** summary.cpp:679-700 *)
Definition getCurrentWeather (pow : flt -> flt -> flt) (sgn : bool) (metar taf : string)
  (year month day : Z) (imperial : bool) : res CurrentWeather :=
  let! metarGroups := parseReport sgn metar RT_METAR in
  let! tafGroups := parseReport sgn taf RT_TAF in
  let! w :=
    match metarGroups with
    | _ :: _ =>
      let! w := currentWeatherFromMetar pow imperial metarGroups in
      Ok (reportReleaseTime w metarGroups year month day)
    | [] =>
      let! w := currentWeatherFromTaf imperial tafGroups in
      Ok (reportReleaseTime w tafGroups year month day)
    end in
  temperatureForecastFromTaf w tafGroups imperial.
