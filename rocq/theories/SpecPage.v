(** Specification for the web page of the summary (C82 to C87). *)
From Coq Require Import String Ascii List ZArith NArith Bool.
From Verif Require Import Prim Values Summary SpecDecimal SpecNumeral SpecShown SpecFigures SpecStream SpecDirection SpecExplain SpecSummary Weather.
Import ListNotations.
Local Open Scope string_scope.

(** ** Numbers *)
(** The number stands in the field of the summary *)
Definition specified (field : Z) : Prop := field <> valueNotSpecified.
(** The text is the number [z] divided by ten to the power [k]: exactly, and without zeros at the end of the decimals *)
Definition divided (k : nat) (text : string) (z : Z) : Prop :=
  exists m n j, with_fraction m n j /\ (j <= k)%nat /\ text = (if Z.ltb z 0 then "-" else "") ++ m
    /\ Z.abs z = (Z.of_N n * 10 ^ Z.of_nat (k - j))%Z.

(** ** The text *)
(** Lines with a line break after each *)
Fixpoint broken (lines : list string) : string :=
  match lines with [] => "" | l :: t => l ++ "<br>" ++ broken t end.
(** There is exactly one line with this beginning, and this is the rest of it; there is none *)
Definition only_line (opening : string) (lines : list string) (rest : string) : Prop :=
  exists before after, lines = (before ++ (opening ++ rest)%string :: after)%list
    /\ forall l, In l (before ++ after)%list -> prefix opening l = false.
Definition no_line (opening : string) (lines : list string) : Prop :=
  forall l, In l lines -> prefix opening l = false.
(** A line for a value: absent if the value is not specified *)
Definition value_line (opening : string) (lines : list string) (field : Z) (shown : string -> Z -> Prop) (ending : string) : Prop :=
  (specified field -> exists a, shown a field /\ only_line opening lines (a ++ ending))
  /\ (~ specified field -> no_line opening lines).
(** A part of a line for a value: nothing if the value is not specified *)
Definition value_part (opening : string) (field : Z) (ending : string) (text : string) : Prop :=
  (specified field -> exists a, signed_whole a field /\ text = opening ++ a ++ ending)
  /\ (~ specified field -> text = "").

(** Units *)
Definition degrees_text (imperial : bool) : string := if imperial then "&deg;F" else "&degC".
Definition speed_text (imperial : bool) : string := if imperial then "mph" else "km/h".
Definition sky_text (s : Sky) : string :=
  match s with
  | Sky_NOT_SPECIFIED => "Cloud data not specified" | Sky_CLEAR => "Clear" | Sky_MOSTLY_CLEAR => "Mostly clear"
  | Sky_MOSTLY_CLOUDY => "Mostly cloudy" | Sky_OVERCAST => "Overcast"
  end.

(** The temperature which counts for hot and cold weather: the perceived one if there is one *)
Definition felt (w : CurrentWeather) (t : Z) : Prop :=
  specified (cw_perceivedTemperature w) /\ t = cw_perceivedTemperature w
  \/ ~ specified (cw_perceivedTemperature w) /\ specified (cw_airTemperature w) /\ t = cw_airTemperature w.
(** 30 degrees Celsius (86 Fahrenheit) and more, 15 degrees Celsius below zero (5 Fahrenheit) and less, 40 km/h and more; 40
    km/h are between 24 and 25 miles per hour *)
Definition hot (imperial : bool) (w : CurrentWeather) : Prop :=
  exists t, felt w t /\ ((if imperial then 86 else 30) <= t)%Z.
Definition cold (imperial : bool) (w : CurrentWeather) : Prop :=
  exists t, felt w t /\ (t <= (if imperial then 5 else -15))%Z.
Definition strong (imperial : bool) (speed : Z) : Prop :=
  specified speed /\ ((if imperial then 25 else 40) <= speed)%Z.

(** The sixteen points of the compass, in quarters of a degree, and their names *)
Definition points : list (Z * string) :=
  [(0, "north"); (90, "north-northeast"); (180, "northeast"); (270, "east-northeast"); (360, "east"); (450, "east-southeast");
   (540, "southeast"); (630, "south-southeast"); (720, "south"); (810, "south-southwest"); (900, "southwest");
   (990, "west-southwest"); (1080, "west"); (1170, "west-northwest"); (1260, "northwest"); (1350, "north-northwest");
   (1440, "north")]%Z.
(** [name] is the name of the point nearest to the direction, which is the only nearest one; exactly north, east, south and
    west are called true. For north this is so for 360 degrees only, since 0 is not used for a direction. *)
Definition nearest_point (degrees : Z) (name : string) : Prop :=
  exists p n, In (p, n) points /\ (Z.abs (4 * degrees - p) < 45)%Z
    /\ name = (if existsb (Z.eqb degrees) [360; 90; 180; 270]%Z then "true " else "") ++ n.

(** Two digits for the hour and two for the minute *)
Definition clock_text (hour minute : Z) (text : string) : Prop :=
  exists hh mm, numeral 2 hh (Z.to_N hour) /\ numeral 2 mm (Z.to_N minute) /\ text = hh ++ ":" ++ mm.
(** A number of hours or minutes *)
Definition counted (unit : string) (n : Z) (text : string) : Prop :=
  n = 1%Z /\ text = "1 " ++ unit \/ n <> 1%Z /\ exists a, signed_whole a n /\ text = a ++ " " ++ unit ++ "s".
(** A time span of some minutes, in hours and minutes *)
Definition span_text (minutes : Z) (text : string) : Prop :=
  exists h m, (0 <= h /\ 0 <= m < 60 /\ minutes = 60 * h + m)%Z
    /\ ((h = 0 /\ m = 0 /\ text = "just now")%Z
        \/ h = 0%Z /\ m <> 0%Z /\ counted "minute" m text
        \/ h <> 0%Z /\ m = 0%Z /\ counted "hour" h text
        \/ h <> 0%Z /\ m <> 0%Z /\ exists a b, counted "hour" h a /\ counted "minute" m b /\ text = a ++ " " ++ b).

(** The words of the wind line after "Wind " *)
Definition wind_words (imperial : bool) (w : CurrentWeather) (text : string) : Prop :=
  exists direction speed gusts, text = direction ++ speed ++ gusts
    /\ (specified (cw_windDirection w) ->
        exists a, signed_whole a (cw_windDirection w)
          /\ ((0 <= cw_windDirection w <= 360)%Z ->
              exists p, nearest_point (cw_windDirection w) p /\ direction = "is " ++ p ++ "ern, " ++ a ++ "&deg;")
          /\ ((360 < cw_windDirection w)%Z -> direction = a ++ "&deg;"))
    /\ (~ specified (cw_windDirection w) -> direction = "is variable")
    /\ value_part ", " (cw_windSpeed w) (" " ++ speed_text imperial) speed
    /\ value_part " with gusts up to " (cw_gustSpeed w) (" " ++ speed_text imperial) gusts.

(** ** The words for the weather *)
Definition lower (c : ascii) : ascii :=
  let n := N_of_ascii c in if (65 <=? n)%N && (n <=? 90)%N then ascii_of_N (n + 32) else c.
Fixpoint lower_case (s : string) : string :=
  match s with EmptyString => "" | String c t => String (lower c) (lower_case t) end.

Definition strength_words (q : WpQualifier) : list string :=
  match q with Q_LIGHT => ["light"] | Q_MODERATE => ["moderate"] | Q_HEAVY => ["heavy"] | _ => [] end.
Definition manner_words (d : WpDescriptor) : list string :=
  match d with
  | D_SHALLOW => ["ground"] | D_PARTIAL => ["partly"] | D_PATCHES => ["patches"] | D_LOW_DRIFTING => ["drifting"]
  | D_BLOWING => ["blowing"] | D_SHOWERS => ["showers"] | D_THUNDERSTORM => ["thunder"; "storm"] | D_FREEZING => ["freezing"]
  | _ => []
  end.
Definition kind_words (w : WpWeather) : list string :=
  match w with
  | W_DRIZZLE => ["drizzle"] | W_RAIN => [" rain"] | W_SNOW => ["snow"] | W_SNOW_GRAINS => ["snow"; "grains"]
  | W_ICE_CRYSTALS => ["ice"; "crystals"; "dust"] | W_ICE_PELLETS => ["ice"; "pellet"] | W_HAIL => ["hail"]
  | W_SMALL_HAIL => ["graupel"] | W_UNDETERMINED => ["undetermined"; "precipitation"] | W_MIST => ["mist"] | W_FOG => ["fog"]
  | W_SMOKE => ["smoke"] | W_VOLCANIC_ASH => ["volcanic"] | W_DUST => ["dust"] | W_SAND => ["sand"] | W_HAZE => ["haze"]
  | W_SPRAY => ["blowing"; "spray"] | W_DUST_WHIRLS => ["sand"; "dust"; "whirls"] | W_SQUALLS => ["squalls"]
  | W_FUNNEL_CLOUD => ["funnel"] | W_SANDSTORM => ["sand"; "storm"] | W_DUSTSTORM => ["dust"; "storm"]
  | W_NOT_REPORTED => ["not"]
  | W_other _ => []
  end.
(** The words the text of a weather symbol has to be made up of. Three symbols have names of their own: a strong funnel
    cloud is a tornado; showers are showers of rain unless something else is named; showers in the vicinity may be of
    anything. *)
Definition words_for (s : SumWeather) : list string :=
  let m := meaning s in
  match sm_near m, sm_manner m, sm_kind m, sm_strength m with
  | true, D_SHOWERS, [], _ => ["vicinity"; "precipitation"]
  | false, D_SHOWERS, [W_RAIN], q => "showers" :: strength_words q
  | false, D_NONE, [W_FUNNEL_CLOUD], Q_HEAVY => ["tornado"]
  | near, d, k, q =>
    ((if near then ["vicinity"] else []) ++ strength_words q ++ manner_words d ++ flat_map kind_words k)%list
  end.
(** All these words ("grains" is no rain) *)
Definition vocabulary : list string :=
  ["vicinity"; "light"; "moderate"; "heavy"; "ground"; "partly"; "patches"; "drifting"; "blowing"; "showers"; "thunder"; "storm";
   "freezing"; "drizzle"; " rain"; "snow"; "grains"; "ice"; "crystals"; "pellet"; "hail"; "graupel"; "undetermined";
   "precipitation"; "mist"; "fog"; "smoke"; "volcanic"; "dust"; "sand"; "haze"; "spray"; "whirls"; "squalls"; "funnel";
   "tornado"; "not"].
(** The text mentions those words of the vocabulary which it has to, and no other *)
Definition describes (text : string) (s : SumWeather) : Prop :=
  forall word, In word vocabulary -> (mentions word (lower_case text) = true <-> In word (words_for s)).

(** ** The widget *)
(** An element of the widget with this style and content *)
Definition contains (part whole : string) : Prop := exists before after, whole = before ++ part ++ after.
Definition element (tag style content : string) : string :=
  "<" ++ tag ++ " class=""" ++ style ++ """>" ++ content ++ "</" ++ tag ++ ">".
(** The value as shown in the widget: "==" if it is not specified *)
Definition in_widget (widget tag style : string) (field : Z) (shown : string -> Z -> Prop) : Prop :=
  (specified field -> exists a, shown a field /\ contains (element tag style a) widget)
  /\ (~ specified field -> contains (element tag style "==") widget).

(** All of the widget but the icon. Where a value is not specified, the pressure in inches and the visibility in
    kilometers are left out here. *)
Definition widget_shows (imperial : bool) (w : CurrentWeather) (widget : string) : Prop :=
  in_widget widget "div" (if imperial then "ww_temp_f" else "ww_temp_c") (cw_airTemperature w) signed_whole
  /\ in_widget widget "div" (if imperial then "ww_temp_feels_f" else "ww_temp_feels_c") (cw_perceivedTemperature w) signed_whole
  /\ in_widget widget "span" (if imperial then "ww_temp_high_f" else "ww_temp_high_c") (cw_airTemperatureHigh w) signed_whole
  /\ in_widget widget "span" (if imperial then "ww_temp_low_f" else "ww_temp_low_c") (cw_airTemperatureLow w) signed_whole
  /\ in_widget widget "span" "ww_rh" (cw_relativeHumidity w) signed_whole
  /\ in_widget widget "div" (if imperial then "ww_wind_mph" else "ww_wind_kmh") (cw_windSpeed w) signed_whole
  /\ (specified (cw_gustSpeed w) -> exists a, signed_whole a (cw_gustSpeed w)
        /\ contains (element "div" (if imperial then "ww_gust_mph" else "ww_gust_kmh") a) widget)
  /\ (~ specified (cw_gustSpeed w) -> contains (element "div" "ww_no_gust" "") widget)
  /\ (imperial = false \/ specified (cw_atmosphericPressure w) ->
      in_widget widget "span" (if imperial then "ww_pres_inhg" else "ww_pres_hpa") (cw_atmosphericPressure w)
        (if imperial then divided 2 else signed_whole))
  /\ (imperial = true \/ specified (cw_visibility w) ->
      in_widget widget "span" (if imperial then "ww_vis_mile" else "ww_vis_km") (cw_visibility w)
        (if imperial then signed_whole else divided 3))
  /\ (cw_isWindVariable w = true -> contains "<div class=""ww_wind_vrb_icon"">" widget)
  /\ (cw_isWindVariable w = false -> specified (cw_windDirection w) -> exists a, signed_whole a (cw_windDirection w)
        /\ contains ("<div class=""ww_wind_dir_icon"" style=""transform: rotate(" ++ a ++ "deg) scaleY(-1);"">") widget).

(** ** Icons *)
(** The icon of the first rule that applies *)
Inductive chosen (default : string) : list (Prop * string) -> string -> Prop :=
| chosen_default : chosen default [] default
| chosen_here : forall (P : Prop) icon rules, P -> chosen default ((P, icon) :: rules) icon
| chosen_later : forall (P : Prop) icon rules other, ~ P -> chosen default rules other -> chosen default ((P, icon) :: rules) other.
(** Groups of weather, in terms of what the symbols mean *)
Definition of_kind (kinds : list WpWeather) (m : symbol_meaning) : bool :=
  match sm_kind m with [k] => existsb (WpWeather_beq k) kinds | _ => false end.
Definition in_manner (manners : list WpDescriptor) (m : symbol_meaning) : bool := existsb (WpDescriptor_beq (sm_manner m)) manners.
Definition of_strength (strengths : list WpQualifier) (m : symbol_meaning) : bool := existsb (WpQualifier_beq (sm_strength m)) strengths.
Definition here (m : symbol_meaning) : bool := negb (sm_near m).

Definition funnel := of_kind [W_FUNNEL_CLOUD].
Definition ash := of_kind [W_VOLCANIC_ASH].
Definition freezing_precipitation (m : symbol_meaning) := of_kind [W_DRIZZLE; W_RAIN] m && in_manner [D_FREEZING] m.
Definition thunder (m : symbol_meaning) := in_manner [D_THUNDERSTORM] m && here m.
Definition thunder_near (m : symbol_meaning) := in_manner [D_THUNDERSTORM] m && sm_near m.
Definition hail := of_kind [W_HAIL; W_SMALL_HAIL].
Definition sand_or_dust_storm := of_kind [W_SANDSTORM; W_DUSTSTORM].
Definition falling (k : WpWeather) (m : symbol_meaning) := of_kind [k] m && in_manner [D_NONE; D_SHOWERS] m.
Definition snow := falling W_SNOW.
Definition light_rain (m : symbol_meaning) := falling W_RAIN m && of_strength [Q_LIGHT] m.
Definition heavier_rain (m : symbol_meaning) := falling W_RAIN m && of_strength [Q_MODERATE; Q_HEAVY] m.
Definition blowing_snow (m : symbol_meaning) := of_kind [W_SNOW] m && in_manner [D_BLOWING] m && here m.
Definition drizzle := falling W_DRIZZLE.
Definition whirls := of_kind [W_DUST_WHIRLS].
Definition drifting (m : symbol_meaning) :=
  of_kind [W_DUST; W_SAND] m && in_manner [D_LOW_DRIFTING; D_BLOWING] m || of_kind [W_SPRAY] m
  || of_kind [W_SNOW] m && in_manner [D_BLOWING] m && sm_near m.
Definition precipitation_near (m : symbol_meaning) := in_manner [D_SHOWERS] m && sm_near m.
Definition airborne (m : symbol_meaning) := of_kind [W_SAND; W_DUST; W_ICE_CRYSTALS] m && in_manner [D_NONE] m.
Definition smoke := of_kind [W_SMOKE].
Definition fog := of_kind [W_FOG].
Definition mist := of_kind [W_MIST].
Definition haze := of_kind [W_HAZE].
Definition squalls := of_kind [W_SQUALLS].

Definition icon_unknown : string := "&#xf07b;".
(** The rules, from the most to the least important *)
Definition icon_rules (imperial : bool) (w : CurrentWeather) : list (Prop * string) :=
  let has (class : symbol_meaning -> bool) : Prop := exists s, In s (cw_weather w) /\ class (meaning s) = true in
  let windy := strong imperial (cw_windSpeed w) \/ strong imperial (cw_gustSpeed w) \/ has squalls in
  let sky (s : Sky) : Prop := cw_cloud w = s in
  [ (has funnel, "&#xf056;");
    (has ash, "&#xf0c8;");
    (has freezing_precipitation, "<img class=""ww_freezing_precip"" src=""weather_widget/icicles-solid-wh.svg"">");
    (has thunder /\ has heavier_rain, "&#xf01e;");
    (has thunder /\ has light_rain, "&#xf01d;");
    (has thunder \/ has thunder_near, "&#xf016;");
    (has hail, "&#xf0b5;");
    (has sand_or_dust_storm, "&#xf082;");
    (has snow /\ (windy \/ has blowing_snow), "&#xf064;");
    (has snow /\ has heavier_rain, "&#xf015;");
    (has snow /\ has light_rain, "&#xf017;");
    ((has light_rain \/ has heavier_rain) /\ windy, "&#xf018;");
    (has snow, "&#xf01b;");
    (has blowing_snow, "&#xf082;");
    (has heavier_rain, "&#xf019;");
    (has light_rain, "&#xf01a;");
    (has drizzle, "&#xf01c;");
    (has whirls, "&#xf056;");
    (has drifting, "&#xf082;");
    (has precipitation_near, "&#xf084;");
    (has airborne, "&#xf063;");
    (has smoke /\ (has mist \/ has fog), "&#xf074;");
    (has smoke, "&#xf062;");
    (has fog, "&#xf014;");
    (has mist \/ has haze, "&#xf021;");
    (windy /\ (sky Sky_MOSTLY_CLOUDY \/ sky Sky_OVERCAST), "&#xf011;");
    (windy, "&#xf050;");
    (cold imperial w, "&#xf076;");
    (hot imperial w, "&#xf072;");
    (sky Sky_OVERCAST, "&#xf013;");
    (sky Sky_MOSTLY_CLOUDY \/ cw_isStormClouds w = true, "&#xf041;");
    (sky Sky_CLEAR \/ sky Sky_MOSTLY_CLEAR, "&#x0020;") ].
(** Weather symbols for which there is no rule *)
Definition without_icon : list SumWeather :=
  [SW_NOT_SPECIFIED; SW_DRIFTING_SNOW; SW_ICE_PELLETS_LIGHT; SW_ICE_PELLETS_MODERATE; SW_ICE_PELLETS_HEAVY;
   SW_SNOW_GRAINS_LIGHT; SW_SNOW_GRAINS_MODERATE; SW_SNOW_GRAINS_HEAVY; SW_UNDETERMINED_LIGHT; SW_UNDETERMINED_MODERATE;
   SW_UNDETERMINED_HEAVY; SW_ICE_PELLETS_SHOWERS_LIGHT; SW_ICE_PELLETS_SHOWERS_MODERATE; SW_ICE_PELLETS_SHOWERS_HEAVY].
(** Nothing to choose an icon by *)
Definition nothing_shown (imperial : bool) (w : CurrentWeather) : Prop :=
  cw_cloud w = Sky_NOT_SPECIFIED /\ cw_isStormClouds w = false /\ ~ hot imperial w /\ ~ cold imperial w
  /\ ~ strong imperial (cw_windSpeed w) /\ ~ strong imperial (cw_gustSpeed w).
(** The same values, and the same weather in any order and number *)
Definition same_but_order (w w' : CurrentWeather) : Prop :=
  (forall s, In s (cw_weather w) <-> In s (cw_weather w')) /\ cw_cloud w = cw_cloud w' /\ cw_isStormClouds w = cw_isStormClouds w'
  /\ cw_windSpeed w = cw_windSpeed w' /\ cw_gustSpeed w = cw_gustSpeed w' /\ cw_airTemperature w = cw_airTemperature w'
  /\ cw_perceivedTemperature w = cw_perceivedTemperature w'.

(** ** All of the text but the wind *)
Definition temperature_words (imperial : bool) (w : CurrentWeather) (text : string) : Prop :=
  exists a b c, text = a ++ b ++ c
    /\ (specified (cw_airTemperature w) -> exists t, signed_whole t (cw_airTemperature w) /\ a = t ++ degrees_text imperial)
    /\ (~ specified (cw_airTemperature w) -> a = "not specified")
    /\ value_part ", high " (cw_airTemperatureHigh w) (degrees_text imperial) b
    /\ value_part ", low " (cw_airTemperatureLow w) (degrees_text imperial) c.
Definition update_specified (w : CurrentWeather) : Prop :=
  specified (cw_updateYear w) /\ specified (cw_updateMonth w) /\ specified (cw_updateDay w) /\ specified (cw_updateHour w)
  /\ specified (cw_updateMinute w).
(** The lines of the text. [clock] gives the local hour and minute of a moment and the minutes gone since. *)
Definition lines_show (clock : Z -> Z -> Z -> Z -> Z -> Z * Z * Z) (imperial : bool) (w : CurrentWeather)
  (weather_texts lines : list string) : Prop :=
  (exists rest, lines = (weather_texts ++ rest)%list)
  /\ (In "Hot" lines <-> hot imperial w)
  /\ (In "Cold" lines <-> cold imperial w)
  /\ (In "Windy" lines <-> strong imperial (cw_windSpeed w))
  /\ (In "Gusty wind" lines <-> strong imperial (cw_gustSpeed w))
  /\ In (sky_text (cw_cloud w) ++ if cw_isStormClouds w then " (storm clouds in the sky)" else "") lines
  /\ (exists t, only_line "Temperature " lines t /\ temperature_words imperial w t)
  /\ value_line "Feels like " lines (cw_perceivedTemperature w) signed_whole (degrees_text imperial)
  /\ value_line "RH " lines (cw_relativeHumidity w) signed_whole "%"
  /\ value_line "Visibility " lines (cw_visibility w) signed_whole (if imperial then " miles" else " meters")
  /\ value_line "Atmospheric pressure " lines (cw_atmosphericPressure w)
       (if imperial then divided 2 else signed_whole) (if imperial then " &quot;Hg" else " hPa")
  /\ (~ update_specified w -> no_line "Updated: " lines)
  /\ (update_specified w -> forall hour minute ago,
        clock (cw_updateYear w) (cw_updateMonth w) (cw_updateDay w) (cw_updateHour w) (cw_updateMinute w) = (hour, minute, ago) ->
        (0 <= hour < 24 -> 0 <= minute < 60 -> 0 <= ago ->
         exists t s, only_line "Updated: " lines (t ++ " (" ++ s ++ " ago)") /\ clock_text hour minute t /\ span_text ago s)%Z).
