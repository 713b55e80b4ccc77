(** C82 and C83: the text on the web page of the summary. *)
From Coq Require Import String List ZArith.
From Verif Require Import Prim Float Values Summary Page SpecFigures SpecExplain SpecPage.
From Verif Require Import Pf_Page Pf_PageText.
Import ListNotations.
Local Open Scope string_scope.

(** *** C82: the text shows the values of the summary *)
(** All but the wind: the weather comes first; every value that is specified has its line with that value, and what is not
    specified has none. Missing for the full property: the wind. *)
Theorem C82_text_partial :
  forall (clock : Z -> Z -> Z -> Z -> Z -> Z * Z * Z) (imperial : bool) (w : CurrentWeather), exists texts lines,
    currentWeatherToHTML clock (adaptCurrentWeather w js_valueNotSpecified) imperial "<br>" = Ok (broken lines)
    /\ Forall (fun l => occurs "<" l = false) lines
    /\ Forall2 (fun s t => weatherPhenomenaToText (sw_code s) = Ok t) (cw_weather w) texts
    /\ lines_show clock imperial w texts lines.
Proof. exact text_shown. Qed.
Print Assumptions C82_text_partial.
(** The division of a text into lines is unique. *)
Theorem C82_lines_unique :
  forall l l' : list string, Forall (fun x => occurs "<" x = false) l -> Forall (fun x => occurs "<" x = false) l' ->
    broken l = broken l' -> l = l'.
Proof. exact broken_unique. Qed.
Print Assumptions C82_lines_unique.
(** The wind line, if the wind has a direction or is variable *)
Theorem C82_wind_partial :
  forall (clock : Z -> Z -> Z -> Z -> Z -> Z * Z * Z) (imperial : bool) (w : CurrentWeather),
    specified (cw_windDirection w) \/ cw_isWindVariable w = true ->
    exists lines text, currentWeatherToHTML clock (adaptCurrentWeather w js_valueNotSpecified) imperial "<br>" = Ok (broken lines)
      /\ Forall (fun l => occurs "<" l = false) lines
      /\ only_line "Wind " lines text /\ wind_words imperial w text.
Proof. exact wind_line_shown. Qed.
Print Assumptions C82_wind_partial.
(** The speed of a wind whose direction is not reported and not variable is not shown, *)
Theorem C82_wind_speed_refuted :
  exists report w, (forall pow, getCurrentWeather pow true report "" 2020 1 1 false = Ok w) /\ specified (cw_windSpeed w)
    /\ forall clock lines, currentWeatherToHTML clock (adaptCurrentWeather w js_valueNotSpecified) false "<br>" = Ok (broken lines) ->
       Forall (fun l => occurs "<" l = false) lines -> no_line "Wind " lines.
Proof. exact no_speed. Qed.
Print Assumptions C82_wind_speed_refuted.
(** and the wind is called variable if the report does not tell anything about the wind. *)
Theorem C82_variable_refuted :
  exists report w, (forall pow, getCurrentWeather pow true report "" 2020 1 1 false = Ok w) /\ cw_isWindVariable w = false
    /\ forall clock lines, currentWeatherToHTML clock (adaptCurrentWeather w js_valueNotSpecified) false "<br>" = Ok (broken lines) ->
       Forall (fun l => occurs "<" l = false) lines -> only_line "Wind " lines "is variable".
Proof. exact no_wind. Qed.
Print Assumptions C82_variable_refuted.
Example C82_nonvacuous :
  exists w, (forall pow, getCurrentWeather pow true "METAR ZZZZ 010000Z 35005G50KT 4000 -RASN BKN020CB A2992=" "TAF ZZZZ 010000Z 0100/0200 TX33/0112Z TNM01/0104Z=" 2020 1 1 false = Ok w)
  /\ currentWeatherToHTML (fun _ _ _ _ _ => (1, 5, 61)%Z) (adaptCurrentWeather w js_valueNotSpecified) false "<br>"
     = Ok (broken ["Light rain"; "Light snow"; "Gusty wind"; "Mostly cloudy (storm clouds in the sky)"; "Temperature not specified, high 33&degC, low -1&degC";
                   "Wind is northern, 350&deg;, 9 km/h with gusts up to 92 km/h"; "Visibility 4000 meters"; "Atmospheric pressure 1013 hPa"; "Updated: 01:05 (1 hour 1 minute ago)"]).
Proof. eexists. split; [intros pow; vm_compute; reflexivity|vm_compute; reflexivity]. Qed.
Example C82_imperial_nonvacuous :
  divided 2 "29.9" 2990 /\ divided 2 "30" 3000 /\ nearest_point 348 "north-northwest" /\ nearest_point 90 "true east" /\ span_text 125 "2 hours 5 minutes".
Proof. exact examples_page. Qed.

(** *** C83: the words for weather and clouds *)
(** Each weather symbol has a text which tells its kind, manner, strength and nearness, and nothing else of that kind; *)
Theorem C83_weather_words :
  forall s : SumWeather, exists t, weatherPhenomenaToText (sw_code s) = Ok t /\ describes t s.
Proof. exact weather_described. Qed.
Print Assumptions C83_weather_words.
(** different symbols have different texts; *)
Theorem C83_weather_distinct :
  forall (s s' : SumWeather) (t : string), weatherPhenomenaToText (sw_code s) = Ok t -> weatherPhenomenaToText (sw_code s') = Ok t -> s = s'.
Proof. exact weather_distinct. Qed.
Print Assumptions C83_weather_distinct.
(** and so it is with the clouds. *)
Theorem C83_cloud_words :
  forall s : Sky, cloudToText (sky_code s) = Ok (sky_text s).
Proof. exact sky_words. Qed.
Print Assumptions C83_cloud_words.
Example C83_nonvacuous :
  weatherPhenomenaToText (sw_code SW_DRIZZLE_FREEZING_HEAVY) = Ok "Heavy freezing drizzle"
  /\ words_for SW_DRIZZLE_FREEZING_HEAVY = ["heavy"; "freezing"; "drizzle"] /\ words_for SW_BLOWING_SNOW_IN_VICINITY = ["vicinity"; "blowing"; "snow"].
Proof. vm_compute. repeat split. Qed.
