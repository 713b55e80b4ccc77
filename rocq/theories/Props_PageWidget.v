(** C84 and C85: the widget on the web page of the summary. *)
From Coq Require Import String List ZArith.
From Verif Require Import Prim Float Values Summary Page SpecSummary SpecPage.
From Verif Require Import Pf_PageIcon Pf_PageWidget.
Import ListNotations.
Local Open Scope string_scope.

(** *** C84: the widget shows the values of the summary *)
(** Missing for the full property: two equality signs for a pressure in inches of mercury or a visibility in kilometers which is
    not specified, and no wind arrow if there is no direction. *)
Theorem C84_widget_partial :
  forall (imperial : bool) (w : CurrentWeather), exists widget,
    makeWeatherWidget (adaptCurrentWeather w js_valueNotSpecified) imperial = Ok widget /\ widget_shows imperial w widget
    /\ exists icon, makeWeatherIcon (adaptCurrentWeather w js_valueNotSpecified) imperial = Ok icon
       /\ contains (element "div" "ww_weather" icon) widget.
Proof. exact widget_shown. Qed.
Print Assumptions C84_widget_partial.
(** A pressure which is not reported is shown as 0 inches, *)
Theorem C84_pressure_refuted :
  exists report w, (forall pow, getCurrentWeather pow true report "" 2020 1 1 true = Ok w) /\ ~ specified (cw_atmosphericPressure w)
    /\ forall widget, makeWeatherWidget (adaptCurrentWeather w js_valueNotSpecified) true = Ok widget ->
       contains (element "span" "ww_pres_inhg" "0") widget.
Proof. exact zero_pressure. Qed.
Print Assumptions C84_pressure_refuted.
(** a visibility which is not reported as 0 km, *)
Theorem C84_visibility_refuted :
  exists report w, (forall pow, getCurrentWeather pow true report "" 2020 1 1 false = Ok w) /\ ~ specified (cw_visibility w)
    /\ forall widget, makeWeatherWidget (adaptCurrentWeather w js_valueNotSpecified) false = Ok widget ->
       contains (element "span" "ww_vis_km" "0") widget.
Proof. exact zero_visibility. Qed.
Print Assumptions C84_visibility_refuted.
(** and a wind direction which is not reported as an arrow turned by null degrees. *)
Theorem C84_direction_refuted :
  exists report w, (forall pow, getCurrentWeather pow true report "" 2020 1 1 false = Ok w) /\ ~ specified (cw_windDirection w)
    /\ cw_isWindVariable w = false
    /\ forall widget, makeWeatherWidget (adaptCurrentWeather w js_valueNotSpecified) false = Ok widget ->
       contains "<div class=""ww_wind_dir_icon"" style=""transform: rotate(nulldeg) scaleY(-1);"">" widget.
Proof. exact null_direction. Qed.
Print Assumptions C84_direction_refuted.
Example C84_nonvacuous :
  exists w widget, (forall pow, getCurrentWeather pow true "METAR ZZZZ 010000Z 35005G50KT 4500 -RASN BKN020CB A2992=" "" 2020 1 1 true = Ok w)
    /\ makeWeatherWidget (adaptCurrentWeather w js_valueNotSpecified) true = Ok widget
    /\ specified (cw_atmosphericPressure w) /\ specified (cw_gustSpeed w) /\ ~ specified (cw_airTemperature w)
    /\ cw_atmosphericPressure w = 2992%Z /\ cw_windDirection w = 350%Z.
Proof. eexists _, _. split; [intros pow; vm_compute; reflexivity|]. split; [vm_compute; reflexivity|].
  split; [discriminate|]. split; [discriminate|]. split; [intros H; apply H; reflexivity|]. split; vm_compute; reflexivity. Qed.

(** *** C85: the icon *)
(** The icon is chosen by the most important of the things which are specified; [icon_rules] lists them. *)
Theorem C85_icon :
  forall (imperial : bool) (w : CurrentWeather), exists icon,
    makeWeatherIcon (adaptCurrentWeather w js_valueNotSpecified) imperial = Ok icon /\ chosen icon_unknown (icon_rules imperial w) icon.
Proof. exact icon_chosen. Qed.
Print Assumptions C85_icon.
(** There is one icon for the same weather, in whatever order and however often it is reported. *)
Theorem C85_icon_unique :
  forall (default : string) (rules : list (Prop * string)) (a b : string), chosen default rules a -> chosen default rules b -> a = b.
Proof. exact chosen_fun. Qed.
Print Assumptions C85_icon_unique.
Theorem C85_order_irrelevant :
  forall (imperial : bool) (w w' : CurrentWeather), same_but_order w w' ->
    makeWeatherIcon (adaptCurrentWeather w js_valueNotSpecified) imperial = makeWeatherIcon (adaptCurrentWeather w' js_valueNotSpecified) imperial.
Proof. exact icon_order. Qed.
Print Assumptions C85_order_irrelevant.
(** The icon for missing data is shown exactly if nothing is known but weather of the fourteen kinds of [without_icon]; the full
    property would have no exceptions. *)
Theorem C85_unknown_partial :
  forall (imperial : bool) (w : CurrentWeather),
    makeWeatherIcon (adaptCurrentWeather w js_valueNotSpecified) imperial = Ok icon_unknown
    <-> nothing_shown imperial w /\ forall s, In s (cw_weather w) -> In s without_icon.
Proof. exact icon_unknown_iff. Qed.
Print Assumptions C85_unknown_partial.
(** Heavy showers of ice pellets have the icon for missing data. *)
Theorem C85_unknown_refuted :
  exists report w, (forall pow, getCurrentWeather pow true report "" 2020 1 1 false = Ok w) /\ cw_weather w <> []
    /\ makeWeatherIcon (adaptCurrentWeather w js_valueNotSpecified) false = Ok icon_unknown.
Proof. exact no_icon. Qed.
Print Assumptions C85_unknown_refuted.
Example C85_nonvacuous :
  exists w w', (forall pow, getCurrentWeather pow true "METAR ZZZZ 010000Z 35005G50KT -SN RA OVC010=" "" 2020 1 1 true = Ok w)
    /\ (forall pow, getCurrentWeather pow true "METAR ZZZZ 010000Z 35005G50KT RA -SN OVC010=" "" 2020 1 1 true = Ok w')
    /\ cw_weather w <> cw_weather w'
    /\ makeWeatherIcon (adaptCurrentWeather w js_valueNotSpecified) true = Ok "&#xf064;"
    /\ makeWeatherIcon (adaptCurrentWeather w' js_valueNotSpecified) true = Ok "&#xf064;".
Proof. eexists _, _. do 2 (split; [intros pow; vm_compute; reflexivity|]). split; [discriminate|]. split; vm_compute; reflexivity. Qed.
