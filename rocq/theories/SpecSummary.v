(** Specification for C61 to C64: what the weather summary of examples/summary.cpp should hold. *)
From Coq Require Import ZArith NArith QArith Qabs List String.
From Verif Require Import Prim Float Values Weather Groups1 Groups2 Groups3 Groups4 Parser Summary.
From Verif Require Import SpecReal SpecUnits SpecSumNumbers.
Import ListNotations.

(** *** Reading a report for one value *)
(** A value is taken from the groups of a report in order; [says before g a] tells that the group [g],
    which comes after the groups [before], gives the value [a]. The last one counts; [none] is the
    value if there is none. *)
Definition last_said {A : Type} (says : list Group -> Group -> A -> Prop) (none : A) (gs : list Group) (a : A) : Prop :=
  a = none /\ (forall before g after, gs = before ++ g :: after -> forall b, ~ says before g b)
  \/ exists before g after, gs = before ++ g :: after /\ says before g a
     /\ forall between h rest, after = between ++ h :: rest -> forall b, ~ says (before ++ g :: between) h b.

(** The groups before the trend group number [n], counted from zero *)
Fixpoint before_trend (n : nat) (gs : list Group) : list Group :=
  match gs with
  | [] => []
  | GTrend g :: t => match n with O => [] | S m => GTrend g :: before_trend m t end
  | g :: t => g :: before_trend n t
  end.

(** Wind at the surface; visibility in general, not towards one direction or along a runway *)
Definition surface_wind (g : WindGroup) : Prop :=
  In (wi_type g) [Wi_SURFACE_WIND; Wi_SURFACE_WIND_CALM; Wi_SURFACE_WIND_WITH_VARIABLE_SECTOR].
Definition prevailing (g : VisibilityGroup) : Prop := In (vi_type g) [Vi_PREVAILING; Vi_PREVAILING_NDV].
Definition any_wind (g : WindGroup) : Prop := True.
Definition any_visibility (g : VisibilityGroup) : Prop := True.

(** *** What one group says *)
Definition says_direction (counts : WindGroup -> Prop) (before : list Group) (g : Group) (z : Z) : Prop :=
  exists k n, g = GWind k /\ counts k /\ Direction_degrees (wi_dir k) = Some n /\ z = Z.of_N n.
(** A speed in kilometres per hour or miles per hour, without the fraction *)
Definition speed_says (imperial : bool) (s : Speed) (z : Z) : Prop :=
  exists n, speedValue s = Some n
    /\ z = whole_part (converted (parts n 1) (metres_per_hour_in (speedUnit s))
                        (metres_per_hour_in (if imperial then MILES_PER_HOUR else KILOMETERS_PER_HOUR))).
Definition says_speed (imperial : bool) (counts : WindGroup -> Prop) (before : list Group) (g : Group) (z : Z) : Prop :=
  exists k, g = GWind k /\ counts k /\ speed_says imperial (wi_speed k) z.
Definition says_gust (imperial : bool) (counts : WindGroup -> Prop) (before : list Group) (g : Group) (z : Z) : Prop :=
  exists k, g = GWind k /\ counts k /\ speed_says imperial (wi_gust k) z.
(** A distance in metres or statute miles without the fraction; miles and metres may be taken for
    each other with an error of 0.0011 %, but metres are given in metres exactly. CAVOK is 10 km. *)
Definition distance_says (imperial : bool) (d : Distance) (z : Z) : Prop :=
  exists n, dist d = Some n
    /\ about (11 # 1000000) (converted (stored n (distUnit d)) (metres_in (distUnit d))
                              (metres_in (if imperial then STATUTE_MILES else METERS))) z
    /\ (distUnit d = METERS -> imperial = false -> z = Z.of_N n).
Definition says_visibility (imperial : bool) (counts : VisibilityGroup -> Prop) (before : list Group) (g : Group) (z : Z) : Prop :=
  (exists k, g = GKeyword k /\ kw_t k = Kw_CAVOK /\ z = if imperial then 6%Z else 10000%Z)
  \/ exists k, g = GVisibility k /\ counts k /\ distance_says imperial (VisibilityGroup_visibility k) z.
(** A temperature of a report in degrees Celsius or Fahrenheit, without the fraction *)
Definition temperature_says (imperial : bool) (t : Temperature) (z : Z) : Prop :=
  exists v, tempValue t = Some v /\ z = whole_part (in_scale (if imperial then Temp_F else Temp_C) (degrees_of t v)).
Definition says_temperature (imperial : bool) (before : list Group) (g : Group) (z : Z) : Prop :=
  exists k, g = GTemperature k /\ temperature_says imperial (tg_t k) z.
(** The perceived temperature: the heat index if there is one, else the wind chill if there is one,
    else the air temperature. The wind is that of the last surface wind group before. *)
Definition wind_said (before : list Group) (g : Group) (s : Speed) : Prop :=
  exists k, g = GWind k /\ surface_wind k /\ s = wi_speed k.
Definition computed_says (imperial : bool) (t : Temperature) (z : Z) : Prop :=
  whole_of (Temperature_toUnit t (if imperial then Temp_F else Temp_C)) z.
Definition says_perceived (pow : flt -> flt -> flt) (imperial : bool) (before : list Group) (g : Group) (z : Z) : Prop :=
  exists k wind heat chill, g = GTemperature k
    /\ last_said wind_said Speed_default before wind
    /\ Temperature_heatIndexDP pow (tg_t k) (tg_dp k) = Ok heat
    /\ Temperature_windChill pow (tg_t k) wind = Ok chill
    /\ (computed_says imperial heat z
        \/ tempValue heat = None /\ computed_says imperial chill z
        \/ tempValue heat = None /\ tempValue chill = None /\ temperature_says imperial (tg_t k) z).
(** The relative humidity the library computes, without the fraction *)
Definition says_humidity (pow : flt -> flt -> flt) (before : list Group) (g : Group) (z : Z) : Prop :=
  exists k, g = GTemperature k /\ whole_of (TemperatureGroup_relativeHumidity pow k) z.
(** The pressure, from the text of the group: Q and hectopascals, or A and hundredths of an inch of
    mercury. Hectopascals are given in hectopascals exactly; otherwise there may be an error of
    0.0025 % before the fraction is left out. *)
Definition pressure_says (imperial : bool) (p : Pressure) (z : Z) : Prop :=
  exists n, (n < 10000)%N /\
    (p = mkPressure (Some (f32_of_N n)) HECTOPASCAL
     /\ about (1 # 40000) (converted (parts n 1) (pascals_in HECTOPASCAL) (shown_pascals imperial)) z
     /\ (imperial = false -> z = Z.of_N n)
     \/ p = mkPressure (Some (f32_mul (f32_of_N n) (flit 1 100))) INCHES_HG
     /\ about (1 # 40000) (converted (parts n 100) (pascals_in INCHES_HG) (shown_pascals imperial)) z).
Definition says_pressure (imperial : bool) (before : list Group) (g : Group) (z : Z) : Prop :=
  exists k, g = GPressure k /\ pg_t k = Pg_OBSERVED_QNH /\ pressure_says imperial (pg_p k) z.
(** Date and time of the release: the day of the report time in this month or, if that day is after
    today, in the month before *)
Definition says_update (year month day : Z) (before : list Group) (g : Group) (v : Z * Z * Z * Z * Z) : Prop :=
  exists k, g = GReportTime k
    /\ let date := MetafTime_dateBeforeRef (rt_t k) (mkDate (Z.to_N year) (Z.to_N month) (Z.to_N day)) in
       v = (Z.of_N (date_year date), Z.of_N (date_month date), Z.of_N (date_day date),
            Z.of_N (hourValue (rt_t k)), Z.of_N (minuteValue (rt_t k))).
(** The forecast temperatures *)
Definition forecast_said (which : MinMaxTemperatureGroup -> Temperature) (before : list Group) (g : Group) (t : Temperature) : Prop :=
  exists k, g = GMinMaxTemperature k /\ t = which k.
Definition forecast_says (imperial : bool) (which : MinMaxTemperatureGroup -> Temperature) (gs : list Group) (z : Z) : Prop :=
  exists t, last_said (forecast_said which) Temperature_default gs t
    /\ (temperature_says imperial t z \/ tempValue t = None /\ z = valueNotSpecified).

(** *** The summary of a list of groups *)
Record common_values (imperial : bool) (winds : WindGroup -> Prop) (visibilities : VisibilityGroup -> Prop)
  (gs : list Group) (w : CurrentWeather) : Prop :=
  { cv_direction : last_said (says_direction winds) valueNotSpecified gs (cw_windDirection w);
    cv_variable : cw_isWindVariable w = true
      <-> exists k, In (GWind k) gs /\ winds k /\ dirType (wi_dir k) = DT_VARIABLE;
    cv_speed : last_said (says_speed imperial winds) valueNotSpecified gs (cw_windSpeed w);
    cv_gust : last_said (says_gust imperial winds) valueNotSpecified gs (cw_gustSpeed w);
    cv_visibility : last_said (says_visibility imperial visibilities) valueNotSpecified gs (cw_visibility w);
    cv_storm : cw_isStormClouds w = true
      <-> exists k, In (GCloud k) gs /\ cl_conv k = Cv_CUMULONIMBUS }.
Record observed_values (pow : flt -> flt -> flt) (imperial : bool) (gs : list Group) (w : CurrentWeather) : Prop :=
  { ov_temperature : last_said (says_temperature imperial) valueNotSpecified gs (cw_airTemperature w);
    ov_perceived : last_said (says_perceived pow imperial) valueNotSpecified gs (cw_perceivedTemperature w);
    ov_humidity : last_said (says_humidity pow) valueNotSpecified gs (cw_relativeHumidity w);
    ov_pressure : last_said (says_pressure imperial) valueNotSpecified gs (cw_atmosphericPressure w) }.
Definition no_values_observed (w : CurrentWeather) : Prop :=
  cw_airTemperature w = valueNotSpecified /\ cw_perceivedTemperature w = valueNotSpecified
  /\ cw_relativeHumidity w = valueNotSpecified /\ cw_atmosphericPressure w = valueNotSpecified.
Definition proper_date (year month day : Z) : Prop :=
  (1 <= year < 2147483648)%Z /\ (1 <= month <= 12)%Z /\ (1 <= day <= 31)%Z.
Definition updated (year month day : Z) (gs : list Group) (w : CurrentWeather) : Prop :=
  last_said (says_update year month day)
    (valueNotSpecified, valueNotSpecified, valueNotSpecified, valueNotSpecified, valueNotSpecified) gs
    (cw_updateYear w, cw_updateMonth w, cw_updateDay w, cw_updateHour w, cw_updateMinute w).

(** The groups of a report of the given type that was read without error and has groups *)
Definition usable (sgn : bool) (report : string) (type : ReportType) (gs : list Group) : Prop :=
  exists r, parse sgn report default_groupLimit = Ok r /\ md_type (pr_metadata r) = type
    /\ md_error (pr_metadata r) = RE_NONE /\ gs = map gi_group (pr_groups r) /\ gs <> [].
Definition unusable (sgn : bool) (report : string) (type : ReportType) : Prop := forall gs, ~ usable sgn report type gs.

(** *** The sky *)
(** How cloudy the sky is by the amount of a cloud layer; of a variable amount the greater one counts *)
Definition sky_of (a : ClAmount) : option Sky :=
  match a with
  | Am_NCD | Am_NONE_CLR | Am_NONE_SKC => Some Sky_CLEAR
  | Am_NSC | Am_FEW | Am_SCATTERED | Am_VARIABLE_FEW_SCATTERED => Some Sky_MOSTLY_CLEAR
  | Am_BROKEN | Am_VARIABLE_SCATTERED_BROKEN => Some Sky_MOSTLY_CLOUDY
  | Am_OVERCAST | Am_OBSCURED | Am_VARIABLE_BROKEN_OVERCAST => Some Sky_OVERCAST
  | Am_NOT_REPORTED => None
  end.
Definition says_sky (g : Group) (s : Sky) : Prop :=
  (exists k, g = GCloud k /\ sky_of (cl_amnt k) = Some s)
  \/ exists k, g = GKeyword k /\ kw_t k = Kw_CAVOK /\ s = Sky_MOSTLY_CLEAR.
Definition sky_le (a b : Sky) : Prop := (sky_code a <= sky_code b)%Z.
(** The greatest amount *)
Definition greatest_sky (gs : list Group) (s : Sky) : Prop :=
  s = Sky_NOT_SPECIFIED /\ (forall g b, In g gs -> ~ says_sky g b)
  \/ (exists g, In g gs /\ says_sky g s) /\ forall g b, In g gs -> says_sky g b -> sky_le b s.
(** No layer after one of a greater amount, and no variable amounts *)
Definition layers_in_order (gs : list Group) : Prop :=
  forall before g between h after a b, gs = before ++ g :: between ++ h :: after ->
    says_sky g a -> says_sky h b -> sky_le a b.
Definition no_variable_amounts (gs : list Group) : Prop :=
  forall k, In (GCloud k) gs ->
    ~ In (cl_amnt k) [Am_VARIABLE_FEW_SCATTERED; Am_VARIABLE_SCATTERED_BROKEN; Am_VARIABLE_BROKEN_OVERCAST].
Definition sky_specified (gs : list Group) (s : Sky) : Prop :=
  (s = Sky_NOT_SPECIFIED <-> forall g b, In g gs -> ~ says_sky g b)
  /\ (s <> Sky_NOT_SPECIFIED -> exists g a, In g gs /\ says_sky g a /\ sky_le s a).

(** *** Weather symbols *)
(** What a symbol says: whether the weather is in the vicinity, its strength ([Q_NONE] if the symbol
    tells none), descriptor and kind *)
Record symbol_meaning := mkMeaning
  { sm_near : bool; sm_strength : WpQualifier; sm_manner : WpDescriptor; sm_kind : list WpWeather }.
Definition meaning (s : SumWeather) : symbol_meaning :=
  let here d w := mkMeaning false Q_NONE d [w] in
  let near d l := mkMeaning true Q_NONE d l in
  match s with
  | SW_NOT_SPECIFIED => here D_NONE W_NOT_REPORTED
  | SW_PRECIPITATION_IN_VICINITY => near D_SHOWERS []
  | SW_THUNDERSTORM_IN_VICINITY => near D_THUNDERSTORM []
  | SW_FOG_IN_VICINITY => near D_NONE [W_FOG]
  | SW_VOLCANIC_ASH_IN_VICINITY => near D_NONE [W_VOLCANIC_ASH]
  | SW_DUST_WHIRLS_IN_VICINITY => near D_NONE [W_DUST_WHIRLS]
  | SW_BLOWING_SNOW_IN_VICINITY => near D_BLOWING [W_SNOW]
  | SW_BLOWING_DUST_IN_VICINITY => near D_BLOWING [W_DUST]
  | SW_BLOWING_SAND_IN_VICINITY => near D_BLOWING [W_SAND]
  | SW_SANDSTORM_IN_VICINITY => near D_NONE [W_SANDSTORM]
  | SW_DUSTSTORM_IN_VICINITY => near D_NONE [W_DUSTSTORM]
  | SW_DRIFTING_SAND => here D_LOW_DRIFTING W_SAND
  | SW_DRIFTING_DUST => here D_LOW_DRIFTING W_DUST
  | SW_DRIFTING_SNOW => here D_LOW_DRIFTING W_SNOW
  | SW_BLOWING_SAND => here D_BLOWING W_SAND
  | SW_BLOWING_DUST => here D_BLOWING W_DUST
  | SW_BLOWING_SNOW => here D_BLOWING W_SNOW
  | SW_BLOWING_SPRAY => here D_NONE W_SPRAY
  | SW_FOG => here D_NONE W_FOG
  | SW_FOG_SHALLOW => here D_SHALLOW W_FOG
  | SW_FOG_PARTIAL => here D_PARTIAL W_FOG
  | SW_FOG_PATCHES => here D_PATCHES W_FOG
  | SW_FOG_FREEZING => here D_FREEZING W_FOG
  | SW_ICE_CRYSTALS => here D_NONE W_ICE_CRYSTALS
  | SW_MIST => here D_NONE W_MIST
  | SW_SMOKE => here D_NONE W_SMOKE
  | SW_VOLCANIC_ASH => here D_NONE W_VOLCANIC_ASH
  | SW_WIDESPREAD_DUST => here D_NONE W_DUST
  | SW_SAND => here D_NONE W_SAND
  | SW_HAZE => here D_NONE W_HAZE
  | SW_DRIZZLE_LIGHT => mkMeaning false Q_LIGHT D_NONE [W_DRIZZLE]
  | SW_DRIZZLE_MODERATE => mkMeaning false Q_MODERATE D_NONE [W_DRIZZLE]
  | SW_DRIZZLE_HEAVY => mkMeaning false Q_HEAVY D_NONE [W_DRIZZLE]
  | SW_RAIN_LIGHT => mkMeaning false Q_LIGHT D_NONE [W_RAIN]
  | SW_RAIN_MODERATE => mkMeaning false Q_MODERATE D_NONE [W_RAIN]
  | SW_RAIN_HEAVY => mkMeaning false Q_HEAVY D_NONE [W_RAIN]
  | SW_SNOW_LIGHT => mkMeaning false Q_LIGHT D_NONE [W_SNOW]
  | SW_SNOW_MODERATE => mkMeaning false Q_MODERATE D_NONE [W_SNOW]
  | SW_SNOW_HEAVY => mkMeaning false Q_HEAVY D_NONE [W_SNOW]
  | SW_ICE_PELLETS_LIGHT => mkMeaning false Q_LIGHT D_NONE [W_ICE_PELLETS]
  | SW_ICE_PELLETS_MODERATE => mkMeaning false Q_MODERATE D_NONE [W_ICE_PELLETS]
  | SW_ICE_PELLETS_HEAVY => mkMeaning false Q_HEAVY D_NONE [W_ICE_PELLETS]
  | SW_SNOW_GRAINS_LIGHT => mkMeaning false Q_LIGHT D_NONE [W_SNOW_GRAINS]
  | SW_SNOW_GRAINS_MODERATE => mkMeaning false Q_MODERATE D_NONE [W_SNOW_GRAINS]
  | SW_SNOW_GRAINS_HEAVY => mkMeaning false Q_HEAVY D_NONE [W_SNOW_GRAINS]
  | SW_GRAUPEL => here D_NONE W_SMALL_HAIL
  | SW_HAIL => here D_NONE W_HAIL
  | SW_UNDETERMINED_LIGHT => mkMeaning false Q_LIGHT D_NONE [W_UNDETERMINED]
  | SW_UNDETERMINED_MODERATE => mkMeaning false Q_MODERATE D_NONE [W_UNDETERMINED]
  | SW_UNDETERMINED_HEAVY => mkMeaning false Q_HEAVY D_NONE [W_UNDETERMINED]
  | SW_RAIN_SHOWERS_LIGHT => mkMeaning false Q_LIGHT D_SHOWERS [W_RAIN]
  | SW_RAIN_SHOWERS_MODERATE => mkMeaning false Q_MODERATE D_SHOWERS [W_RAIN]
  | SW_RAIN_SHOWERS_HEAVY => mkMeaning false Q_HEAVY D_SHOWERS [W_RAIN]
  | SW_SNOW_SHOWERS_LIGHT => mkMeaning false Q_LIGHT D_SHOWERS [W_SNOW]
  | SW_SNOW_SHOWERS_MODERATE => mkMeaning false Q_MODERATE D_SHOWERS [W_SNOW]
  | SW_SNOW_SHOWERS_HEAVY => mkMeaning false Q_HEAVY D_SHOWERS [W_SNOW]
  | SW_ICE_PELLETS_SHOWERS_LIGHT => mkMeaning false Q_LIGHT D_SHOWERS [W_ICE_PELLETS]
  | SW_ICE_PELLETS_SHOWERS_MODERATE => mkMeaning false Q_MODERATE D_SHOWERS [W_ICE_PELLETS]
  | SW_ICE_PELLETS_SHOWERS_HEAVY => mkMeaning false Q_HEAVY D_SHOWERS [W_ICE_PELLETS]
  | SW_DRIZZLE_FREEZING_LIGHT => mkMeaning false Q_LIGHT D_FREEZING [W_DRIZZLE]
  | SW_DRIZZLE_FREEZING_MODERATE => mkMeaning false Q_MODERATE D_FREEZING [W_DRIZZLE]
  | SW_DRIZZLE_FREEZING_HEAVY => mkMeaning false Q_HEAVY D_FREEZING [W_DRIZZLE]
  | SW_RAIN_FREEZING_LIGHT => mkMeaning false Q_LIGHT D_FREEZING [W_RAIN]
  | SW_RAIN_FREEZING_MODERATE => mkMeaning false Q_MODERATE D_FREEZING [W_RAIN]
  | SW_RAIN_FREEZING_HEAVY => mkMeaning false Q_HEAVY D_FREEZING [W_RAIN]
  | SW_THUNDERSTORM => mkMeaning false Q_NONE D_THUNDERSTORM []
  | SW_DUST_WHIRLS => here D_NONE W_DUST_WHIRLS
  | SW_SQUALLS => here D_NONE W_SQUALLS
  | SW_FUNNEL_CLOUD => here D_NONE W_FUNNEL_CLOUD
  | SW_TORNADO => mkMeaning false Q_HEAVY D_NONE [W_FUNNEL_CLOUD]
  | SW_SANDSTORM => here D_NONE W_SANDSTORM
  | SW_SANDSTORM_HEAVY => mkMeaning false Q_HEAVY D_NONE [W_SANDSTORM]
  | SW_DUSTSTORM => here D_NONE W_DUSTSTORM
  | SW_DUSTSTORM_HEAVY => mkMeaning false Q_HEAVY D_NONE [W_DUSTSTORM]
  end.
(** The symbol says nothing that is not reported: the same kind of weather, and strength and
    descriptor either as reported or not told. Weather without a sign is moderate. *)
Definition true_symbol (q : WpQualifier) (d : WpDescriptor) (w : WpWeather) (s : SumWeather) : Prop :=
  sm_near (meaning s) = false /\ sm_kind (meaning s) = [w]
  /\ (sm_strength (meaning s) = Q_NONE \/ sm_strength (meaning s) = q
      \/ sm_strength (meaning s) = Q_MODERATE /\ q <> Q_LIGHT /\ q <> Q_HEAVY)
  /\ (sm_manner (meaning s) = D_NONE \/ sm_manner (meaning s) = d).
(** How much a symbol tells; the descriptor is worth more than the strength *)
Definition details (s : SumWeather) : nat :=
  (match sm_strength (meaning s) with Q_LIGHT | Q_HEAVY => 1 | _ => 0 end)
  + (match sm_manner (meaning s) with D_NONE => 0 | _ => 2 end).
(** ... and every other symbol for which that holds says less *)
Definition best_symbol (q : WpQualifier) (d : WpDescriptor) (w : WpWeather) (s : SumWeather) : Prop :=
  true_symbol q d w s /\ forall s', true_symbol q d w s' -> s' = s \/ (details s' < details s)%nat.
(** The symbols of one phenomenon: one for weather in the vicinity; otherwise one for a thunderstorm
    and one for each kind of weather *)
Inductive symbols_of (p : WeatherPhenomena) : list SumWeather -> Prop :=
| symbols_near : forall s, Wp_qualifier p = Q_VICINITY ->
    meaning s = mkMeaning true Q_NONE (Wp_descriptor p) (Wp_weather p) -> symbols_of p [s]
| symbols_storm : forall l, Wp_qualifier p <> Q_VICINITY -> Wp_descriptor p = D_THUNDERSTORM ->
    Forall2 (best_symbol (Wp_qualifier p) D_NONE) (Wp_weather p) l -> symbols_of p (SW_THUNDERSTORM :: l)
| symbols_here : forall l, Wp_qualifier p <> Q_VICINITY -> Wp_descriptor p <> D_THUNDERSTORM ->
    Forall2 (best_symbol (Wp_qualifier p) (Wp_descriptor p)) (Wp_weather p) l -> symbols_of p l.
Definition symbol_count (p : WeatherPhenomena) : nat :=
  match Wp_qualifier p, Wp_descriptor p with
  | Q_VICINITY, _ => 1
  | _, D_THUNDERSTORM => S (List.length (Wp_weather p))
  | _, _ => List.length (Wp_weather p)
  end.
(** The symbols of several phenomena, one after another; of those of the kind [bad] only the number
    of symbols is told *)
Inductive all_symbols (bad : WeatherPhenomena -> Prop) : list WeatherPhenomena -> list SumWeather -> Prop :=
| all_none : all_symbols bad [] []
| all_more : forall p ps l l', List.length l = symbol_count p -> (~ bad p -> symbols_of p l) ->
    all_symbols bad ps l' -> all_symbols bad (p :: ps) (l ++ l').
Definition none_bad (p : WeatherPhenomena) : Prop := False.
(** Ice pellets that do not fall in showers, and a funnel cloud in the vicinity *)
Definition misshown (p : WeatherPhenomena) : Prop :=
  In W_ICE_PELLETS (Wp_weather p) /\ Wp_descriptor p <> D_SHOWERS
  \/ Wp_qualifier p = Q_VICINITY /\ Wp_weather p = [W_FUNNEL_CLOUD].
(** The phenomena of the weather groups that count *)
Definition current_weather (g : WeatherGroup) : bool := WxType_beq (wx_t g) Wx_CURRENT.
Definition any_weather (g : WeatherGroup) : bool := true.
Definition phenomena_in (counts : WeatherGroup -> bool) (gs : list Group) : list WeatherPhenomena :=
  flat_map (fun g => match g with
                     | GWeather k => if counts k then WeatherGroup_weatherPhenomena k else []
                     | _ => []
                     end) gs.
