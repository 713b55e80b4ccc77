(** The web page of the weather summary, examples/shellfiles/summary_shell.html (JavaScript), and
    the names which examples/summary.cpp gives to its values there (Emscripten bindings,
    summary.cpp:702-818). Modelled: what is shown for a result of getCurrentWeather (the list with
    the text and the widget with its icon), and the merging of the METAR, TAF and station data.
    Not modelled: fetching, the browser's position, Date (a parameter), the distance to the
    station (a parameter), the menus for unit and distance. Definitions only. *)

From Verif Require Import Prim Float Format Values Summary.
Local Open Scope string_scope.

(** ** Enumerations and constants as seen by JavaScript *)

(** summary.cpp:706-712 *)
Definition cloud_bindings : list (string * Z) :=
  [ ("NOT_SPECIFIED", sky_code Sky_NOT_SPECIFIED);
    ("CLEAR", sky_code Sky_CLEAR);
    ("MOSTLY_CLEAR", sky_code Sky_MOSTLY_CLEAR);
    ("MOSTLY_CLOUDY", sky_code Sky_MOSTLY_CLOUDY);
    ("OVERCAST", sky_code Sky_OVERCAST) ].
(** summary.cpp:714-789 *)
Definition weather_bindings : list (string * Z) :=
  [ ("NOT_SPECIFIED", sw_code SW_NOT_SPECIFIED);
    ("PRECIPITATION_IN_VICINITY", sw_code SW_PRECIPITATION_IN_VICINITY);
    ("THUNDERSTORM_IN_VICINITY", sw_code SW_THUNDERSTORM_IN_VICINITY);
    ("FOG_IN_VICINITY", sw_code SW_FOG_IN_VICINITY);
    ("VOLCANIC_ASH_IN_VICINITY", sw_code SW_VOLCANIC_ASH_IN_VICINITY);
    ("DUST_WHIRLS_IN_VICINITY", sw_code SW_DUST_WHIRLS_IN_VICINITY);
    ("BLOWING_SNOW_IN_VICINITY", sw_code SW_BLOWING_SNOW_IN_VICINITY);
    ("BLOWING_DUST_IN_VICINITY", sw_code SW_BLOWING_DUST_IN_VICINITY);
    ("BLOWING_SAND_IN_VICINITY", sw_code SW_BLOWING_SAND_IN_VICINITY);
    ("SANDSTORM_IN_VICINITY", sw_code SW_SANDSTORM_IN_VICINITY);
    ("DUSTSTORM_IN_VICINITY", sw_code SW_DUSTSTORM_IN_VICINITY);
    ("DRIFTING_SAND", sw_code SW_DRIFTING_SAND);
    ("DRIFTING_DUST", sw_code SW_DRIFTING_DUST);
    ("DRIFTING_SNOW", sw_code SW_DRIFTING_SNOW);
    ("BLOWING_SAND", sw_code SW_BLOWING_SAND);
    ("BLOWING_DUST", sw_code SW_BLOWING_DUST);
    ("BLOWING_SNOW", sw_code SW_BLOWING_SNOW);
    ("BLOWING_SPRAY", sw_code SW_BLOWING_SPRAY);
    ("FOG", sw_code SW_FOG);
    ("FOG_SHALLOW", sw_code SW_FOG_SHALLOW);
    ("FOG_PARTIAL", sw_code SW_FOG_PARTIAL);
    ("FOG_PATCHES", sw_code SW_FOG_PATCHES);
    ("FOG_FREEZING", sw_code SW_FOG_FREEZING);
    ("ICE_CRYSTALS", sw_code SW_ICE_CRYSTALS);
    ("MIST", sw_code SW_MIST);
    ("SMOKE", sw_code SW_SMOKE);
    ("VOLCANIC_ASH", sw_code SW_VOLCANIC_ASH);
    ("WIDESPREAD_DUST", sw_code SW_WIDESPREAD_DUST);
    ("SAND", sw_code SW_SAND);
    ("HAZE", sw_code SW_HAZE);
    ("DRIZZLE_LIGHT", sw_code SW_DRIZZLE_LIGHT);
    ("DRIZZLE_MODERATE", sw_code SW_DRIZZLE_MODERATE);
    ("DRIZZLE_HEAVY", sw_code SW_DRIZZLE_HEAVY);
    ("RAIN_LIGHT", sw_code SW_RAIN_LIGHT);
    ("RAIN_MODERATE", sw_code SW_RAIN_MODERATE);
    ("RAIN_HEAVY", sw_code SW_RAIN_HEAVY);
    ("SNOW_LIGHT", sw_code SW_SNOW_LIGHT);
    ("SNOW_MODERATE", sw_code SW_SNOW_MODERATE);
    ("SNOW_HEAVY", sw_code SW_SNOW_HEAVY);
    ("ICE_PELLETS_LIGHT", sw_code SW_ICE_PELLETS_LIGHT);
    ("ICE_PELLETS_MODERATE", sw_code SW_ICE_PELLETS_MODERATE);
    ("ICE_PELLETS_HEAVY", sw_code SW_ICE_PELLETS_HEAVY);
    ("SNOW_GRAINS_LIGHT", sw_code SW_SNOW_GRAINS_LIGHT);
    ("SNOW_GRAINS_MODERATE", sw_code SW_SNOW_GRAINS_MODERATE);
    ("SNOW_GRAINS_HEAVY", sw_code SW_SNOW_GRAINS_HEAVY);
    ("GRAUPEL", sw_code SW_GRAUPEL);
    ("HAIL", sw_code SW_HAIL);
    ("UNDETERMINED_LIGHT", sw_code SW_UNDETERMINED_LIGHT);
    ("UNDETERMINED_MODERATE", sw_code SW_UNDETERMINED_MODERATE);
    ("UNDETERMINED_HEAVY", sw_code SW_UNDETERMINED_HEAVY);
    ("RAIN_SHOWERS_LIGHT", sw_code SW_RAIN_SHOWERS_LIGHT);
    ("RAIN_SHOWERS_MODERATE", sw_code SW_RAIN_SHOWERS_MODERATE);
    ("RAIN_SHOWERS_HEAVY", sw_code SW_RAIN_SHOWERS_HEAVY);
    ("SNOW_SHOWERS_LIGHT", sw_code SW_SNOW_SHOWERS_LIGHT);
    ("SNOW_SHOWERS_MODERATE", sw_code SW_SNOW_SHOWERS_MODERATE);
    ("SNOW_SHOWERS_HEAVY", sw_code SW_SNOW_SHOWERS_HEAVY);
    ("ICE_PELLETS_SHOWERS_LIGHT", sw_code SW_ICE_PELLETS_SHOWERS_LIGHT);
    ("ICE_PELLETS_SHOWERS_MODERATE", sw_code SW_ICE_PELLETS_SHOWERS_MODERATE);
    ("ICE_PELLETS_SHOWERS_HEAVY", sw_code SW_ICE_PELLETS_SHOWERS_HEAVY);
    ("DRIZZLE_FREEZING_LIGHT", sw_code SW_DRIZZLE_FREEZING_LIGHT);
    ("DRIZZLE_FREEZING_MODERATE", sw_code SW_DRIZZLE_FREEZING_MODERATE);
    ("DRIZZLE_FREEZING_HEAVY", sw_code SW_DRIZZLE_FREEZING_HEAVY);
    ("RAIN_FREEZING_LIGHT", sw_code SW_RAIN_FREEZING_LIGHT);
    ("RAIN_FREEZING_MODERATE", sw_code SW_RAIN_FREEZING_MODERATE);
    ("RAIN_FREEZING_HEAVY", sw_code SW_RAIN_FREEZING_HEAVY);
    ("THUNDERSTORM", sw_code SW_THUNDERSTORM);
    ("DUST_WHIRLS", sw_code SW_DUST_WHIRLS);
    ("SQUALLS", sw_code SW_SQUALLS);
    ("FUNNEL_CLOUD", sw_code SW_FUNNEL_CLOUD);
    ("TORNADO", sw_code SW_TORNADO);
    ("SANDSTORM", sw_code SW_SANDSTORM);
    ("SANDSTORM_HEAVY", sw_code SW_SANDSTORM_HEAVY);
    ("DUSTSTORM", sw_code SW_DUSTSTORM);
    ("DUSTSTORM_HEAVY", sw_code SW_DUSTSTORM_HEAVY) ].
(** summary_shell.html:189-193, the cases of the switch *)
Definition cloud_cases : list (string * string) :=
  [ ("NOT_SPECIFIED", "Cloud data not specified");
    ("CLEAR", "Clear");
    ("MOSTLY_CLEAR", "Mostly clear");
    ("MOSTLY_CLOUDY", "Mostly cloudy");
    ("OVERCAST", "Overcast") ].
(** summary_shell.html:200-420 *)
Definition weather_cases : list (string * string) :=
  [ ("NOT_SPECIFIED", "Weather data not specified");
    ("PRECIPITATION_IN_VICINITY", "Precipitation in vicinity");
    ("THUNDERSTORM_IN_VICINITY", "Thunderstorm in vicinity");
    ("FOG_IN_VICINITY", "Fog in vicinity");
    ("VOLCANIC_ASH_IN_VICINITY", "Volcanic ash in vicinity");
    ("DUST_WHIRLS_IN_VICINITY", "Sand or dust whirls in vicinity");
    ("BLOWING_SNOW_IN_VICINITY", "Blowing snow in vicinity");
    ("BLOWING_DUST_IN_VICINITY", "Blowing dust in vicinity");
    ("BLOWING_SAND_IN_VICINITY", "Blowing sand in vicinity");
    ("SANDSTORM_IN_VICINITY", "Sand storm in vicinity");
    ("DUSTSTORM_IN_VICINITY", "Dust storm in vicinity");
    ("DRIFTING_SAND", "Low drifting sand");
    ("DRIFTING_DUST", "Low drifting dust");
    ("DRIFTING_SNOW", "Low drifting snow");
    ("BLOWING_SAND", "Blowing sand");
    ("BLOWING_DUST", "Blowing dust");
    ("BLOWING_SNOW", "Blowing snow");
    ("BLOWING_SPRAY", "Blowing spray");
    ("FOG", "Fog");
    ("FOG_SHALLOW", "Ground fog");
    ("FOG_PARTIAL", "Location partly covered by fog");
    ("FOG_PATCHES", "Random patches of fog");
    ("FOG_FREEZING", "Freezing fog");
    ("ICE_CRYSTALS", "Airborne ice crystals (diamond dust)");
    ("MIST", "Mist");
    ("SMOKE", "Smoke");
    ("VOLCANIC_ASH", "Volcanic ash");
    ("WIDESPREAD_DUST", "Widespread dust");
    ("SAND", "Airborne sand particles");
    ("HAZE", "Haze");
    ("DRIZZLE_LIGHT", "Light drizzle");
    ("DRIZZLE_MODERATE", "Moderate drizzle");
    ("DRIZZLE_HEAVY", "Heavy drizzle");
    ("RAIN_LIGHT", "Light rain");
    ("RAIN_MODERATE", "Moderate rain");
    ("RAIN_HEAVY", "Heavy rain");
    ("SNOW_LIGHT", "Light snow");
    ("SNOW_MODERATE", "Moderate snow");
    ("SNOW_HEAVY", "Heavy snow");
    ("ICE_PELLETS_LIGHT", "Ice pellets (light intensity)");
    ("ICE_PELLETS_MODERATE", "Ice pellets (moderate intensity)");
    ("ICE_PELLETS_HEAVY", "Ice pellets (heavy intensity)");
    ("SNOW_GRAINS_LIGHT", "Snow grains (light intensity)");
    ("SNOW_GRAINS_MODERATE", "Snow grains (moderate intensity)");
    ("SNOW_GRAINS_HEAVY", "Snow grains (heavy intensity)");
    ("GRAUPEL", "Graupel");
    ("HAIL", "Hail");
    ("UNDETERMINED_LIGHT", "Undetermined precipitation (light)");
    ("UNDETERMINED_MODERATE", "Undetermined precipitation (moderate)");
    ("UNDETERMINED_HEAVY", "Undetermined precipitation (heavy)");
    ("RAIN_SHOWERS_LIGHT", "Light showers");
    ("RAIN_SHOWERS_MODERATE", "Moderate showers");
    ("RAIN_SHOWERS_HEAVY", "Heavy showers");
    ("SNOW_SHOWERS_LIGHT", "Light snow showers");
    ("SNOW_SHOWERS_MODERATE", "Moderate snow showers");
    ("SNOW_SHOWERS_HEAVY", "Heavy snow showers");
    ("ICE_PELLETS_SHOWERS_LIGHT", "Light ice pellet showers");
    ("ICE_PELLETS_SHOWERS_MODERATE", "Moderate ice pellet showers");
    ("ICE_PELLETS_SHOWERS_HEAVY", "Heavy ice pellet showers");
    ("DRIZZLE_FREEZING_LIGHT", "Light freezing drizzle");
    ("DRIZZLE_FREEZING_MODERATE", "Moderate freezing drizzle");
    ("DRIZZLE_FREEZING_HEAVY", "Heavy freezing drizzle");
    ("RAIN_FREEZING_LIGHT", "Light freezing rain");
    ("RAIN_FREEZING_MODERATE", "Moderate freezing rain");
    ("RAIN_FREEZING_HEAVY", "Heavy freezing rain");
    ("THUNDERSTORM", "Thunderstorm");
    ("DUST_WHIRLS", "Sand or dust whirls");
    ("SQUALLS", "Squalls");
    ("FUNNEL_CLOUD", "Funnel cloud");
    ("TORNADO", "Tornado or waterspout");
    ("SANDSTORM", "Sand storm");
    ("SANDSTORM_HEAVY", "Heavy sand storm");
    ("DUSTSTORM", "Dust storm");
    ("DUSTSTORM_HEAVY", "Heavy dust storm") ].

(** summary.cpp:817 *)
Definition js_valueNotSpecified : Z := valueNotSpecified.

(** [Module.Cloud.NAME.value], [Module.Weather.NAME.value]: for a name which is not bound,
    [Module.Cloud.NAME] is undefined and [.value] of it throws TypeError *)
Fixpoint enum_value (bindings : list (string * Z)) (name : string) : res Z :=
  match bindings with
  | [] => Bad Throw
  | (n, v) :: rest => if (n =? name)%string then Ok v else enum_value rest name
  end.

(** [switch (v) { case ENUM.NAME.value: return "text"; ... default: return dflt; }]: the labels
    are evaluated one after another until one is equal to the value *)
Fixpoint js_switch (bindings : list (string * Z)) (cases : list (string * string)) (dflt : string)
  (v : Z) : res string :=
  match cases with
  | [] => Ok dflt
  | (name, text) :: rest =>
    let! n := enum_value bindings name in
    if (n =? v)%Z then Ok text else js_switch bindings rest dflt v
  end.

(** ** Numbers *)

(** [String(n)] for an integer *)
Definition js_int (z : Z) : string := dec_Z z.

Fixpoint trim_zeros (s : string) : string :=
  match s with
  | "" => ""
  | String c r =>
    match trim_zeros r with
    | "" => if Ascii.eqb c "0" then "" else String c ""
    | r' => String c r'
    end
  end.

(** [String(z / 10 ** k)] for an integer z of 32 bits and k = 2 or 3. JavaScript writes the
    shortest decimal number that is rounded to the quotient, and that is z / 10 ** k itself, since
    it has at most ten digits and no two numbers of up to 15 digits are rounded to the same. *)
Definition js_quotient (k : nat) (z : Z) : string :=
  let a := Z.abs z in
  let p := (10 ^ Z.of_nat k)%Z in
  (if (z <? 0)%Z then "-" else "") ++
  dec_N (Z.to_N (a / p)) ++
  match trim_zeros (dec_digits k (a mod p)) with "" => "" | f => "." ++ f end.

(** ** adaptCurrentWeather *)

(** The CurrentWeather object of the page. A number is [Some]; null is [None]. [cloud] and the
    elements of [weather] are the numbers of the enumerators. *)
Record PageWeather := mkPage
  { pw_windDirection : option Z; pw_isWindVariable : bool; pw_windSpeed : option Z;
    pw_gustSpeed : option Z; pw_visibility : option Z; pw_cloud : Z; pw_isStormClouds : bool;
    pw_weather : list Z; pw_airTemperature : option Z; pw_perceivedTemperature : option Z;
    pw_airTemperatureHigh : option Z; pw_airTemperatureLow : option Z;
    pw_relativeHumidity : option Z; pw_atmosphericPressure : option Z; pw_updateYear : option Z;
    pw_updateMonth : option Z; pw_updateDay : option Z; pw_updateHour : option Z;
    pw_updateMinute : option Z }.

(** summary_shell.html:155-158 *)
Definition nullIfNoValue (data noValue : Z) : option Z :=
  if (data =? noValue)%Z then None else Some data.

(** summary_shell.html:160-185, and summary.cpp:791-811 for the members of the object *)
Definition adaptCurrentWeather (w : CurrentWeather) (noValue : Z) : PageWeather :=
  {| pw_windDirection := nullIfNoValue (cw_windDirection w) noValue;
     pw_isWindVariable := cw_isWindVariable w;
     pw_windSpeed := nullIfNoValue (cw_windSpeed w) noValue;
     pw_gustSpeed := nullIfNoValue (cw_gustSpeed w) noValue;
     pw_visibility := nullIfNoValue (cw_visibility w) noValue;
     pw_cloud := sky_code (cw_cloud w);
     pw_isStormClouds := cw_isStormClouds w;
     pw_weather := map sw_code (cw_weather w);
     pw_airTemperature := nullIfNoValue (cw_airTemperature w) noValue;
     pw_perceivedTemperature := nullIfNoValue (cw_perceivedTemperature w) noValue;
     pw_airTemperatureHigh := nullIfNoValue (cw_airTemperatureHigh w) noValue;
     pw_airTemperatureLow := nullIfNoValue (cw_airTemperatureLow w) noValue;
     pw_relativeHumidity := nullIfNoValue (cw_relativeHumidity w) noValue;
     pw_atmosphericPressure := nullIfNoValue (cw_atmosphericPressure w) noValue;
     pw_updateYear := nullIfNoValue (cw_updateYear w) noValue;
     pw_updateMonth := nullIfNoValue (cw_updateMonth w) noValue;
     pw_updateDay := nullIfNoValue (cw_updateDay w) noValue;
     pw_updateHour := nullIfNoValue (cw_updateHour w) noValue;
     pw_updateMinute := nullIfNoValue (cw_updateMinute w) noValue |}.

(** ** Texts *)

(** summary_shell.html:187-196 *)
Definition cloudToText (cloud : Z) : res string :=
  js_switch cloud_bindings cloud_cases "Cloud data unknown" cloud.

(** summary_shell.html:198-425 *)
Definition weatherPhenomenaToText (phenomena : Z) : res string :=
  js_switch weather_bindings weather_cases "Unknown weather phenomena" phenomena.

(** summary_shell.html:427-434 *)
Fixpoint weatherToText (weather : list Z) (eol : string) : res string :=
  match weather with
  | [] => Ok ""
  | v :: rest =>
    let! t := weatherPhenomenaToText v in
    let! r := weatherToText rest eol in
    Ok (t ++ eol ++ r)
  end.

(** summary_shell.html:436-459 *)
Definition directionToCardinalText (degrees : Z) : option string :=
  if (360 <? degrees)%Z then None else
  if (degrees =? 360)%Z then Some "true north" else
  if (degrees =? 90)%Z then Some "true east" else
  if (degrees =? 180)%Z then Some "true south" else
  if (degrees =? 270)%Z then Some "true west" else
  if (degrees <=? 11)%Z then Some "north" else
  if (degrees <=? 33)%Z then Some "north-northeast" else
  if (degrees <=? 56)%Z then Some "northeast" else
  if (degrees <=? 78)%Z then Some "east-northeast" else
  if (degrees <=? 101)%Z then Some "east" else
  if (degrees <=? 123)%Z then Some "east-southeast" else
  if (degrees <=? 146)%Z then Some "southeast" else
  if (degrees <=? 168)%Z then Some "south-southeast" else
  if (degrees <=? 191)%Z then Some "south" else
  if (degrees <=? 213)%Z then Some "south-southwest" else
  if (degrees <=? 236)%Z then Some "southwest" else
  if (degrees <=? 258)%Z then Some "west-southwest" else
  if (degrees <=? 281)%Z then Some "west" else
  if (degrees <=? 303)%Z then Some "west-northwest" else
  if (degrees <=? 326)%Z then Some "northwest" else
  if (degrees <=? 348)%Z then Some "north-northwest" else
  Some "north".

(** summary_shell.html:461-470, on the hours and minutes of the Date object *)
Definition dateTimeToStr_HH_MM (hours minutes : Z) : string :=
  (if (hours <? 10)%Z then "0" else "") ++ js_int hours ++ ":" ++
  (if (minutes <? 10)%Z then "0" else "") ++ js_int minutes.

(** summary_shell.html:488-506 *)
Definition timeDifferenceMinutesToString (timeDiffMinutes : Z) : string :=
  if (timeDiffMinutes =? 0)%Z then "just now" else
  let timeDiffHours := Z.quot timeDiffMinutes 60 in
  let timeDiffMinutesOfHour := (timeDiffMinutes - timeDiffHours * 60)%Z in
  (if (timeDiffHours =? 0)%Z then "" else
   if (timeDiffHours =? 1)%Z then "1 hour" else js_int timeDiffHours ++ " hours") ++
  (if negb (timeDiffHours =? 0)%Z && negb (timeDiffMinutesOfHour =? 0)%Z then " " else "") ++
  (if (timeDiffMinutesOfHour =? 0)%Z then "" else
   if (timeDiffMinutesOfHour =? 1)%Z then "1 minute" else
   js_int timeDiffMinutesOfHour ++ " minutes").

(** summary_shell.html:508-513 *)
Definition isHot (actualTemp feelsTemp : option Z) (imperialUnits : bool) : bool :=
  let hotTemp := (if imperialUnits then 86 else 30)%Z in
  match (match feelsTemp with Some t => Some t | None => actualTemp end) with
  | None => false
  | Some temp => (hotTemp <=? temp)%Z
  end.

(** summary_shell.html:515-520 *)
Definition isCold (actualTemp feelsTemp : option Z) (imperialUnits : bool) : bool :=
  let coldTemp := (if imperialUnits then 5 else -15)%Z in
  match (match feelsTemp with Some t => Some t | None => actualTemp end) with
  | None => false
  | Some temp => (temp <=? coldTemp)%Z
  end.

(** summary_shell.html:522-526; the threshold in hundredths *)
Definition isWindy (windSpeed : option Z) (imperialUnits : bool) : bool :=
  match windSpeed with
  | None => false
  | Some s => ((if imperialUnits then 2485 else 4000) <=? 100 * s)%Z
  end.

(** summary_shell.html:528-634. [clock year month day hour minute] stands for the Date object of
    lines 612-623: the local hour and minute of the update, and the minutes gone since. *)
Definition currentWeatherToHTML (clock : Z -> Z -> Z -> Z -> Z -> Z * Z * Z) (weather : PageWeather)
  (imperialUnits : bool) (eol : string) : res string :=
  let tempUnit := if imperialUnits then "&deg;F" else "&degC" in
  let pressureUnit := if imperialUnits then "&quot;Hg" else "hPa" in
  let speedUnit := if imperialUnits then "mph" else "km/h" in
  let visUnit := if imperialUnits then "miles" else "meters" in
  let dirUnit := "&deg;" in
  let! phenomena := weatherToText (pw_weather weather) eol in
  let! cloud := cloudToText (pw_cloud weather) in
  Ok (phenomena ++
    (if isHot (pw_airTemperature weather) (pw_perceivedTemperature weather) imperialUnits
     then "Hot" ++ eol else "") ++
    (if isCold (pw_airTemperature weather) (pw_perceivedTemperature weather) imperialUnits
     then "Cold" ++ eol else "") ++
    (if isWindy (pw_windSpeed weather) imperialUnits then "Windy" ++ eol else "") ++
    (if isWindy (pw_gustSpeed weather) imperialUnits then "Gusty wind" ++ eol else "") ++
    cloud ++ (if pw_isStormClouds weather then " (storm clouds in the sky)" else "") ++ eol ++
    "Temperature " ++
    match pw_airTemperature weather with
    | Some t => js_int t ++ tempUnit
    | None => "not specified"
    end ++
    match pw_airTemperatureHigh weather with
    | Some t => ", high " ++ js_int t ++ tempUnit
    | None => ""
    end ++
    match pw_airTemperatureLow weather with
    | Some t => ", low " ++ js_int t ++ tempUnit
    | None => ""
    end ++ eol ++
    match pw_perceivedTemperature weather with
    | Some t => "Feels like " ++ js_int t ++ tempUnit ++ eol
    | None => ""
    end ++
    (if has_value (pw_windDirection weather) || negb (has_value (pw_windSpeed weather)) ||
        pw_isWindVariable weather
     then
       "Wind " ++
       match pw_windDirection weather with
       | Some d =>
         match directionToCardinalText d with
         | Some cardinal => "is " ++ cardinal ++ "ern, "
         | None => ""
         end ++ js_int d ++ dirUnit
       | None => "is variable"
       end ++
       match pw_windSpeed weather with
       | Some s => ", " ++ js_int s ++ " " ++ speedUnit
       | None => ""
       end ++
       match pw_gustSpeed weather with
       | Some s => " with gusts up to " ++ js_int s ++ " " ++ speedUnit
       | None => ""
       end ++ eol
     else "") ++
    match pw_relativeHumidity weather with
    | Some rh => "RH " ++ js_int rh ++ "%" ++ eol
    | None => ""
    end ++
    match pw_visibility weather with
    | Some v => "Visibility " ++ js_int v ++ " " ++ visUnit ++ eol
    | None => ""
    end ++
    match pw_atmosphericPressure weather with
    | Some p =>
      "Atmospheric pressure " ++ (if imperialUnits then js_quotient 2 p else js_int p) ++ " " ++
      pressureUnit ++ eol
    | None => ""
    end ++
    match pw_updateYear weather, pw_updateMonth weather, pw_updateDay weather,
          pw_updateHour weather, pw_updateMinute weather with
    | Some y, Some m, Some d, Some h, Some mi =>
      let '(localHour, localMinute, minutesAgo) := clock y m d h mi in
      "Updated: " ++ dateTimeToStr_HH_MM localHour localMinute ++ " (" ++
      timeDifferenceMinutesToString minutesAgo ++ " ago)" ++ eol
    | _, _, _, _, _ => ""
    end).

(** ** The widget *)

(** [currentWeather.weather.includes(Module.Weather.A.value) || ...includes(...B.value) || ...] *)
Fixpoint includes_any (weather : list Z) (names : list string) : res bool :=
  match names with
  | [] => Ok false
  | name :: rest =>
    let! v := enum_value weather_bindings name in
    if existsb (Z.eqb v) weather then Ok true else includes_any weather rest
  end.

(** [currentWeather.cloud === Module.Cloud.A.value || currentWeather.cloud === ...] *)
Fixpoint cloud_any (cloud : Z) (names : list string) : res bool :=
  match names with
  | [] => Ok false
  | name :: rest =>
    let! v := enum_value cloud_bindings name in
    if (cloud =? v)%Z then Ok true else cloud_any cloud rest
  end.

(** summary_shell.html:637-822 *)
Definition makeWeatherIcon (currentWeather : PageWeather) (imperialUnits : bool) : res string :=
  let weather := pw_weather currentWeather in
  let cloud := pw_cloud currentWeather in
  let! isConsiderablyCloudy := cloud_any cloud ["MOSTLY_CLOUDY"; "OVERCAST"] in
  let! isFog := includes_any weather ["FOG"; "FOG_SHALLOW"; "FOG_PARTIAL"; "FOG_PATCHES";
    "FOG_FREEZING"; "FOG_IN_VICINITY"] in
  let! isSnow := includes_any weather ["SNOW_LIGHT"; "SNOW_MODERATE"; "SNOW_HEAVY";
    "SNOW_SHOWERS_LIGHT"; "SNOW_SHOWERS_MODERATE"; "SNOW_SHOWERS_HEAVY"] in
  let! isRainLight := includes_any weather ["RAIN_LIGHT"; "RAIN_SHOWERS_LIGHT"] in
  let! isRainModerateToHeavy := includes_any weather ["RAIN_MODERATE"; "RAIN_HEAVY";
    "RAIN_SHOWERS_MODERATE"; "RAIN_SHOWERS_HEAVY"] in
  let isRain := isRainLight || isRainModerateToHeavy in
  let! isWindyGustsSqualls :=
    if isWindy (pw_windSpeed currentWeather) imperialUnits then Ok true else
    if isWindy (pw_gustSpeed currentWeather) imperialUnits then Ok true else
    includes_any weather ["SQUALLS"] in
  let hot := isHot (pw_airTemperature currentWeather) (pw_perceivedTemperature currentWeather)
    imperialUnits in
  let cold := isCold (pw_airTemperature currentWeather) (pw_perceivedTemperature currentWeather)
    imperialUnits in
  let result := "&#xf07b;" in
  let! b := cloud_any cloud ["CLEAR"; "MOSTLY_CLEAR"] in
  let result := if b then "&#x0020;" else result in
  let! b := cloud_any cloud ["MOSTLY_CLOUDY"] in
  let result := if b || pw_isStormClouds currentWeather then "&#xf041;" else result in
  let! b := cloud_any cloud ["OVERCAST"] in
  let result := if b then "&#xf013;" else result in
  let result := if hot then "&#xf072;" else result in
  let result := if cold then "&#xf076;" else result in
  let result :=
    if isWindyGustsSqualls then (if isConsiderablyCloudy then "&#xf011;" else "&#xf050;")
    else result in
  let! b := includes_any weather ["MIST"; "HAZE"] in
  let result := if b then "&#xf021;" else result in
  let result := if isFog then "&#xf014;" else result in
  let! smoke := includes_any weather ["SMOKE"] in
  let! mist := includes_any weather ["MIST"] in
  let result :=
    if smoke then (if mist || isFog then "&#xf074;" else "&#xf062;") else result in
  let! b := includes_any weather ["SAND"; "WIDESPREAD_DUST"; "ICE_CRYSTALS"] in
  let result := if b then "&#xf063;" else result in
  let! b := includes_any weather ["PRECIPITATION_IN_VICINITY"] in
  let result := if b then "&#xf084;" else result in
  let! b := includes_any weather ["DRIFTING_DUST"; "DRIFTING_SAND"; "BLOWING_SAND";
    "BLOWING_DUST"; "BLOWING_SPRAY"; "BLOWING_DUST_IN_VICINITY"; "BLOWING_SAND_IN_VICINITY";
    "BLOWING_SNOW_IN_VICINITY"] in
  let result := if b then "&#xf082;" else result in
  let! b := includes_any weather ["DUST_WHIRLS_IN_VICINITY"; "DUST_WHIRLS"] in
  let result := if b then "&#xf056;" else result in
  let! b := includes_any weather ["DRIZZLE_LIGHT"; "DRIZZLE_MODERATE"; "DRIZZLE_HEAVY"] in
  let result := if b then "&#xf01c;" else result in
  let result := if isRainLight then "&#xf01a;" else result in
  let result := if isRainModerateToHeavy then "&#xf019;" else result in
  let! blowing := includes_any weather ["BLOWING_SNOW"] in
  let result := if blowing then "&#xf082;" else result in
  let result := if isSnow then "&#xf01b;" else result in
  let result := if isRain && isWindyGustsSqualls then "&#xf018;" else result in
  let result := if isRainLight && isSnow then "&#xf017;" else result in
  let result := if isRainModerateToHeavy && isSnow then "&#xf015;" else result in
  let result := if isSnow && (isWindyGustsSqualls || blowing) then "&#xf064;" else result in
  let! b := includes_any weather ["SANDSTORM"; "SANDSTORM_HEAVY"; "SANDSTORM_IN_VICINITY";
    "DUSTSTORM"; "DUSTSTORM_HEAVY"; "DUSTSTORM_IN_VICINITY"] in
  let result := if b then "&#xf082;" else result in
  let! b := includes_any weather ["HAIL"; "GRAUPEL"] in
  let result := if b then "&#xf0b5;" else result in
  let! b := includes_any weather ["THUNDERSTORM_IN_VICINITY"] in
  let result := if b then "&#xf016;" else result in
  let! b := includes_any weather ["THUNDERSTORM"] in
  let result :=
    if b then
      (if isRainModerateToHeavy then "&#xf01e;" else if isRainLight then "&#xf01d;" else "&#xf016;")
    else result in
  let! b := includes_any weather ["DRIZZLE_FREEZING_LIGHT"; "DRIZZLE_FREEZING_MODERATE";
    "DRIZZLE_FREEZING_HEAVY"; "RAIN_FREEZING_LIGHT"; "RAIN_FREEZING_MODERATE";
    "RAIN_FREEZING_HEAVY"] in
  let result :=
    if b then "<img class=""ww_freezing_precip"" src=""weather_widget/icicles-solid-wh.svg"">"
    else result in
  let! b := includes_any weather ["VOLCANIC_ASH"; "VOLCANIC_ASH_IN_VICINITY"] in
  let result := if b then "&#xf0c8;" else result in
  let! b := includes_any weather ["FUNNEL_CLOUD"; "TORNADO"] in
  let result := if b then "&#xf056;" else result in
  Ok result.

(** summary_shell.html:940-944, on the text of a number *)
Definition valueOrNullToString (value : option string) (nullValue : string) : string :=
  match value with Some s => s | None => nullValue end.

(** [String(value)] of a number or null inside a template literal *)
Definition js_template (value : option Z) : string :=
  match value with Some z => js_int z | None => "null" end.

(** The text of [value / 10 ** k]. In the division null is taken as 0, and the quotient is a
    number even if the value is null. *)
Definition js_divide (k : nat) (value : option Z) : option string :=
  Some (js_quotient k (match value with Some z => z | None => 0%Z end)).

(** A tab and a line feed, for the layout of the text of the widget *)
Definition js_newline (tabs : nat) : string :=
  String "010" (string_of_list_ascii (repeat "009"%char tabs)).

(** summary_shell.html:824-893 *)
Definition makeWeatherWidget (currentWeather : PageWeather) (imperialUnits : bool) : res string :=
  let unit (imperial metric : string) := if imperialUnits then imperial else metric in
  let number (v : option Z) := option_map js_int v in
  let tempStyle := unit "ww_temp_f" "ww_temp_c" in
  let tempFeelsStyle := unit "ww_temp_feels_f" "ww_temp_feels_c" in
  let tempHighStyle := unit "ww_temp_high_f" "ww_temp_high_c" in
  let tempLowStyle := unit "ww_temp_low_f" "ww_temp_low_c" in
  let pressureStyle := unit "ww_pres_inhg" "ww_pres_hpa" in
  let rhStyle := "ww_rh" in
  let windStyle := unit "ww_wind_mph" "ww_wind_kmh" in
  let visStyle := unit "ww_vis_mile" "ww_vis_km" in
  let windIconStyle :=
    if pw_isWindVariable currentWeather then "" else
    " style=""transform: rotate(" ++ js_template (pw_windDirection currentWeather) ++
    "deg) scaleY(-1);""" in
  let windIconClass :=
    if pw_isWindVariable currentWeather then "ww_wind_vrb_icon" else "ww_wind_dir_icon" in
  let gustStyle := unit "ww_gust_mph" "ww_gust_kmh" in
  let gustStyle := if has_value (pw_gustSpeed currentWeather) then gustStyle else "ww_no_gust" in
  let gustStr := valueOrNullToString (number (pw_gustSpeed currentWeather)) "" in
  let tempStr := valueOrNullToString (number (pw_airTemperature currentWeather)) "==" in
  let tempFeelsStr := valueOrNullToString (number (pw_perceivedTemperature currentWeather)) "==" in
  let tempHighStr := valueOrNullToString (number (pw_airTemperatureHigh currentWeather)) "==" in
  let tempLowStr := valueOrNullToString (number (pw_airTemperatureLow currentWeather)) "==" in
  let rhStr := valueOrNullToString (number (pw_relativeHumidity currentWeather)) "==" in
  let pressureVal :=
    if imperialUnits then js_divide 2 (pw_atmosphericPressure currentWeather)
    else number (pw_atmosphericPressure currentWeather) in
  let pressureStr := valueOrNullToString pressureVal "==" in
  let windStr := valueOrNullToString (number (pw_windSpeed currentWeather)) "==" in
  let vis :=
    if imperialUnits then number (pw_visibility currentWeather)
    else js_divide 3 (pw_visibility currentWeather) in
  let visStr := valueOrNullToString vis "==" in
  let! weatherIconStr := makeWeatherIcon currentWeather imperialUnits in
  Ok (js_newline 4 ++ "<div class=""weather_widget"">" ++
    js_newline 5 ++ "<div class=""ww_weather"">" ++ weatherIconStr ++ "</div>" ++
    js_newline 5 ++ "<div class=""ww_temp_icon"">&#xf055;</div>" ++
    js_newline 5 ++ "<div class=""" ++ tempStyle ++ """>" ++ tempStr ++ "</div>" ++
    js_newline 5 ++ "<div class=""" ++ tempFeelsStyle ++ """>" ++ tempFeelsStr ++ "</div>" ++
    js_newline 5 ++ "<div class=""" ++ windIconClass ++ """" ++ windIconStyle ++
      ">&#xf0b1;</div>" ++
    js_newline 5 ++ "<div class=""" ++ windStyle ++ """>" ++ windStr ++ "</div>" ++
    js_newline 5 ++ "<div class=""" ++ gustStyle ++ """>" ++ gustStr ++ "</div>" ++
    js_newline 5 ++ "<div class=""ww_other"">" ++
    js_newline 6 ++ "<span class=""" ++ tempLowStyle ++ """>" ++ tempLowStr ++ "</span>" ++
    js_newline 6 ++ "<span class=""" ++ tempHighStyle ++ """>" ++ tempHighStr ++ "</span>" ++
    js_newline 6 ++ "<span class=""" ++ rhStyle ++ """>" ++ rhStr ++ "</span>" ++
    js_newline 6 ++ "<br>" ++
    js_newline 6 ++ "<span class=""" ++ pressureStyle ++ """>" ++ pressureStr ++ "</span>" ++
    js_newline 6 ++ "<span class=""" ++ visStyle ++ """>" ++ visStr ++ "</span>" ++
    js_newline 5 ++ "</div>" ++
    js_newline 4 ++ "</div>").

(** ** The data of the stations *)

(** The child nodes of an element of the XML answer: local name and inner HTML. undefined is
    [None]. *)
Definition js_node := (string * string)%type.

Record js_station := mkStation { st_id : option string; st_name : option string }.
Record js_report := mkReport
  { rp_id : option string; rp_lat : option string; rp_lon : option string;
    rp_report : option string }.

(** summary_shell.html:127-138 *)
Definition getStationFromNodeList (nodeList : list js_node) : js_station :=
  fold_left (fun (st : js_station) (value : js_node) =>
    let (localName, valData) := value in
    if (localName =? "station_id")%string then mkStation (Some valData) (st_name st) else
    if (localName =? "site")%string then mkStation (st_id st) (Some valData) else st)
  nodeList (mkStation None None).

(** summary_shell.html:140-153 *)
Definition getReportFromNodeList (nodeList : list js_node) : js_report :=
  fold_left (fun (rp : js_report) (value : js_node) =>
    let (localName, valData) := value in
    if (localName =? "raw_text")%string
    then mkReport (rp_id rp) (rp_lat rp) (rp_lon rp) (Some valData) else
    if (localName =? "station_id")%string
    then mkReport (Some valData) (rp_lat rp) (rp_lon rp) (rp_report rp) else
    if (localName =? "latitude")%string
    then mkReport (rp_id rp) (Some valData) (rp_lon rp) (rp_report rp) else
    if (localName =? "longitude")%string
    then mkReport (rp_id rp) (rp_lat rp) (Some valData) (rp_report rp) else rp)
  nodeList (mkReport None None None None).

(** The elements of the map [weatherData], and the map with its keys in the order of their
    first insertion. [D] is the type of the distance. *)
Record StationData (D : Type) := mkStationData
  { sd_name : option string; sd_lat : option string; sd_lon : option string; sd_distKm : D;
    sd_metar : option string; sd_taf : option string }.
Arguments mkStationData {D}.
Arguments sd_name {D}. Arguments sd_lat {D}. Arguments sd_lon {D}. Arguments sd_distKm {D}.
Arguments sd_metar {D}. Arguments sd_taf {D}.

Definition js_key_eqb (a b : option string) : bool :=
  match a, b with
  | Some x, Some y => (x =? y)%string
  | None, None => true
  | _, _ => false
  end.

Definition js_map (V : Type) := list (option string * V).

(** [map.get(key)] *)
Fixpoint js_get {V : Type} (m : js_map V) (key : option string) : option V :=
  match m with
  | [] => None
  | (k, v) :: rest => if js_key_eqb k key then Some v else js_get rest key
  end.

(** [map.set(key, value)] *)
Fixpoint js_set {V : Type} (m : js_map V) (key : option string) (value : V) : js_map V :=
  match m with
  | [] => [(key, value)]
  | (k, v) :: rest => if js_key_eqb k key then (k, value) :: rest else (k, v) :: js_set rest key value
  end.

(** summary_shell.html:1016-1051. [distanceKm lat lon] stands for the distance of that position
    to the user. *)
Definition AWCdataToMap {D : Type} (distanceKm : option string -> option string -> D)
  (metarData tafData : list (list js_node)) : js_map (StationData D) :=
  let weatherData :=
    fold_left (fun m nodes =>
      let metar := getReportFromNodeList nodes in
      let dist := distanceKm (rp_lat metar) (rp_lon metar) in
      js_set m (rp_id metar)
        (mkStationData (Some "") (rp_lat metar) (rp_lon metar) dist (rp_report metar) (Some "")))
    metarData [] in
  fold_left (fun m nodes =>
    let taf := getReportFromNodeList nodes in
    match js_get m (rp_id taf) with
    | Some e =>
      js_set m (rp_id taf)
        (mkStationData (sd_name e) (sd_lat e) (sd_lon e) (sd_distKm e) (sd_metar e) (rp_report taf))
    | None =>
      let dist := distanceKm (rp_lat taf) (rp_lon taf) in
      js_set m (rp_id taf)
        (mkStationData (Some "") (rp_lat taf) (rp_lon taf) dist (Some "") (rp_report taf))
    end)
  tafData weatherData.

(** summary_shell.html:1053-1063 *)
Definition addStationNames {D : Type} (weatherData : js_map (StationData D))
  (stationData : list (list js_node)) : js_map (StationData D) :=
  fold_left (fun m nodes =>
    let station := getStationFromNodeList nodes in
    match js_get m (st_id station) with
    | Some e =>
      js_set m (st_id station)
        (mkStationData (st_name station) (sd_lat e) (sd_lon e) (sd_distKm e) (sd_metar e) (sd_taf e))
    | None => m
    end)
  stationData weatherData.

(** ** The page with all stations *)

(** summary_shell.html:902-930. [distStr] is the text of the distance, lines 912-915. A name
    which is undefined is neither null nor equal to "", and [+=] writes it as "undefined". *)
Definition displayWeatherData (clock : Z -> Z -> Z -> Z -> Z -> Z * Z * Z) (name : option string)
  (distStr : string) (currWeather : PageWeather) (imperialUnits : bool) : res string :=
  let! widget := makeWeatherWidget currWeather imperialUnits in
  let! text := currentWeatherToHTML clock currWeather imperialUnits "<br>" in
  Ok ("<div class=""weatherdataitem"">" ++ "<div class=""weatherstation"">" ++
    match name with
    | Some n => if (n =? "")%string then "NAME UNKNOWN" else n
    | None => "undefined"
    end ++
    " (" ++ distStr ++ " away)" ++ "</div>" ++
    "<div class=""widget"">" ++ widget ++ "</div>" ++
    "<div class=""weathertext"">" ++ text ++ "</div>" ++ "</div>").

(** summary_shell.html:1100-1104: what is added to the page, and whether the loop came to its
    end. getCurrentWeather throws if it is called with undefined for a report (the generated
    conversion to std::string accepts strings only); an exception ends the loop. *)
Fixpoint displayStations {D : Type} (clock : Z -> Z -> Z -> Z -> Z -> Z * Z * Z)
  (pow : flt -> flt -> flt) (sgn : bool) (distStr : D -> string) (year month day : Z)
  (imperialUnits : bool) (weatherData : js_map (StationData D)) : list string * option err :=
  match weatherData with
  | [] => ([], None)
  | (_, value) :: rest =>
    let shown :=
      match sd_metar value, sd_taf value with
      | Some metar, Some taf =>
        let! w := getCurrentWeather pow sgn metar taf year month day imperialUnits in
        displayWeatherData clock (sd_name value) (distStr (sd_distKm value))
          (adaptCurrentWeather w js_valueNotSpecified) imperialUnits
      | _, _ => Bad Throw
      end in
    match shown with
    | Ok text =>
      let (texts, e) := displayStations clock pow sgn distStr year month day imperialUnits rest in
      (text :: texts, e)
    | Bad e => ([], Some e)
    end
  end.
