(** The widget of the web page of the summary (C84). *)
From Coq Require Import Lia ZArith NArith List String Bool.
Import ListNotations.
From Verif Require Import Prim Lib Float Format Values Weather Summary Page.
From Verif Require Import SpecFigures SpecStream SpecExplain SpecSummary SpecPage.
From Verif Require Import Pf_ExShown Pf_Page Pf_PageLines Pf_PageText Pf_PageIcon.
Local Open Scope string_scope.

Definition numbered (v : option Z) : string := match v with Some z => js_int z | None => "==" end.
Definition divided_text (k : nat) (v : option Z) : string := js_quotient k match v with Some z => z | None => 0%Z end.
Definition wind_icon (p : PageWeather) : string :=
  if pw_isWindVariable p then "ww_wind_vrb_icon"">"
  else "ww_wind_dir_icon"" style=""transform: rotate(" ++ js_template (pw_windDirection p) ++ "deg) scaleY(-1);"">".
Definition pieces (icon : string) (imperial : bool) (p : PageWeather) : list string :=
  [ js_newline 4 ++ "<div class=""weather_widget"">" ++ js_newline 5;
    element "div" "ww_weather" icon; js_newline 5;
    element "div" "ww_temp_icon" "&#xf055;"; js_newline 5;
    element "div" (if imperial then "ww_temp_f" else "ww_temp_c") (numbered (pw_airTemperature p)); js_newline 5;
    element "div" (if imperial then "ww_temp_feels_f" else "ww_temp_feels_c") (numbered (pw_perceivedTemperature p)); js_newline 5;
    "<div class=""" ++ wind_icon p; "&#xf0b1;</div>" ++ js_newline 5;
    element "div" (if imperial then "ww_wind_mph" else "ww_wind_kmh") (numbered (pw_windSpeed p)); js_newline 5;
    element "div" (if has_value (pw_gustSpeed p) then (if imperial then "ww_gust_mph" else "ww_gust_kmh") else "ww_no_gust")
      (match pw_gustSpeed p with Some z => js_int z | None => "" end); js_newline 5 ++ "<div class=""ww_other"">" ++ js_newline 6;
    element "span" (if imperial then "ww_temp_low_f" else "ww_temp_low_c") (numbered (pw_airTemperatureLow p)); js_newline 6;
    element "span" (if imperial then "ww_temp_high_f" else "ww_temp_high_c") (numbered (pw_airTemperatureHigh p)); js_newline 6;
    element "span" "ww_rh" (numbered (pw_relativeHumidity p)); js_newline 6 ++ "<br>" ++ js_newline 6;
    element "span" (if imperial then "ww_pres_inhg" else "ww_pres_hpa")
      (if imperial then divided_text 2 (pw_atmosphericPressure p) else numbered (pw_atmosphericPressure p)); js_newline 6;
    element "span" (if imperial then "ww_vis_mile" else "ww_vis_km")
      (if imperial then numbered (pw_visibility p) else divided_text 3 (pw_visibility p));
    js_newline 5 ++ "</div>" ++ js_newline 4 ++ "</div>" ].
Definition joined (l : list string) : string := fold_right append "" l.

Lemma joined_contains : forall l x, In x l -> contains x (joined l).
Proof.
  induction l as [|y l IH]; intros x I; [destruct I|]. destruct I as [-> |I]; [exists "", (joined l); reflexivity|].
  destruct (IH x I) as (a & b & E). exists (y ++ a), b. cbn [joined fold_right]. fold (joined l). rewrite E, app_assoc_s. reflexivity.
Qed.
Lemma widget_pieces : forall imperial w, exists icon,
  makeWeatherWidget (adaptCurrentWeather w js_valueNotSpecified) imperial = Ok (joined (pieces icon imperial (adaptCurrentWeather w js_valueNotSpecified)))
  /\ makeWeatherIcon (adaptCurrentWeather w js_valueNotSpecified) imperial = Ok icon.
Proof.
  intros imperial w. destruct (icon_chosen imperial w) as (icon & E & _). exists icon. split; [|exact E]. unfold makeWeatherWidget. cbv zeta. rewrite (bind_ok _ _ _ _ _ E). cbv beta. clear E.
  generalize (adaptCurrentWeather w js_valueNotSpecified). intros p. f_equal.
  assert (N : forall v, valueOrNullToString (option_map js_int v) "==" = numbered v) by (intros [v|]; reflexivity).
  assert (G : forall v, valueOrNullToString (option_map js_int v) "" = match v with Some z => js_int z | None => "" end) by (intros [v|]; reflexivity).
  assert (P : valueOrNullToString (if imperial then js_divide 2 (pw_atmosphericPressure p) else option_map js_int (pw_atmosphericPressure p)) "==" = if imperial then divided_text 2 (pw_atmosphericPressure p) else numbered (pw_atmosphericPressure p)) by (destruct imperial; [reflexivity|apply N]).
  assert (V : valueOrNullToString (if imperial then option_map js_int (pw_visibility p) else js_divide 3 (pw_visibility p)) "==" = if imperial then numbered (pw_visibility p) else divided_text 3 (pw_visibility p)) by (destruct imperial; [apply N|reflexivity]).
  assert (I : forall rest, "<div class=""" ++ (if pw_isWindVariable p then "ww_wind_vrb_icon" else "ww_wind_dir_icon") ++ """" ++ (if pw_isWindVariable p then "" else " style=""transform: rotate(" ++ js_template (pw_windDirection p) ++ "deg) scaleY(-1);""") ++ ">&#xf0b1;</div>" ++ rest
    = "<div class=""" ++ wind_icon p ++ "&#xf0b1;</div>" ++ rest).
  { intros rest. unfold wind_icon. destruct (pw_isWindVariable p); [reflexivity|]. rewrite !app_assoc_s. reflexivity. }
  rewrite !N, !G, P, V, I. clear N G P V I. unfold pieces, joined, element. cbn [fold_right].
  generalize (numbered (pw_airTemperature p)), (numbered (pw_perceivedTemperature p)), (numbered (pw_windSpeed p)), (numbered (pw_airTemperatureLow p)), (numbered (pw_airTemperatureHigh p)), (numbered (pw_relativeHumidity p)).
  generalize (js_newline 4), (js_newline 5), (js_newline 6), (wind_icon p). intros. rewrite ?app_assoc_s, ?app_empty_r. reflexivity.
Qed.
Lemma shown_in : forall l tag style (shown : string -> Z -> Prop) v (number : Z -> string),
  (forall z, shown (number z) z) -> In (element tag style (match nullIfNoValue v js_valueNotSpecified with Some z => number z | None => "==" end)) l -> in_widget (joined l) tag style v shown.
Proof.
  intros l tag style shown v number N I. unfold in_widget. destruct (null_cases v) as [(E & ?)|(E & ?)]; rewrite E in I; split; intros S; try contradiction.
  - apply joined_contains. exact I.
  - exists (number v). split; [apply N|]. apply joined_contains. exact I.
Qed.
Ltac listed := repeat first [left; reflexivity | right].
Theorem widget_shown : forall imperial w, exists widget,
  makeWeatherWidget (adaptCurrentWeather w js_valueNotSpecified) imperial = Ok widget /\ widget_shows imperial w widget
  /\ exists icon, makeWeatherIcon (adaptCurrentWeather w js_valueNotSpecified) imperial = Ok icon /\ contains (element "div" "ww_weather" icon) widget.
Proof.
  intros imperial w. destruct (widget_pieces imperial w) as (icon & E & I). eexists. split; [exact E|]. split; [|exists icon; split; [exact I|apply joined_contains; unfold pieces; listed]].
  clear E I. unfold widget_shows, pieces. cbn [adaptCurrentWeather pw_airTemperature pw_perceivedTemperature pw_airTemperatureHigh pw_airTemperatureLow pw_relativeHumidity pw_windSpeed pw_gustSpeed pw_atmosphericPressure pw_visibility].
  split; [apply shown_in with (number := js_int); [apply int_shown|listed]|].
  split; [apply shown_in with (number := js_int); [apply int_shown|listed]|].
  split; [apply shown_in with (number := js_int); [apply int_shown|listed]|].
  split; [apply shown_in with (number := js_int); [apply int_shown|listed]|].
  split; [apply shown_in with (number := js_int); [apply int_shown|listed]|].
  split; [apply shown_in with (number := js_int); [apply int_shown|listed]|].
  split; [intros S; exists (js_int (cw_gustSpeed w)); split; [apply int_shown|]; apply joined_contains; null (cw_gustSpeed w); [contradiction|]; cbn [has_value]; listed|].
  split; [intros S; apply joined_contains; null (cw_gustSpeed w); [|contradiction]; cbn [has_value]; listed|].
  split.
  { intros S. destruct imperial.
    - destruct S as [S|S]; [discriminate S|]. split; [intros _|intros N; contradiction]. exists (js_quotient 2 (cw_atmosphericPressure w)). split; [apply quotient_shown|].
      apply joined_contains. null (cw_atmosphericPressure w); [contradiction|]. unfold divided_text. listed.
    - apply shown_in with (number := js_int); [apply int_shown|listed]. }
  split.
  { intros S. destruct imperial.
    - apply shown_in with (number := js_int); [apply int_shown|listed].
    - destruct S as [S|S]; [discriminate S|]. split; [intros _|intros N; contradiction]. exists (js_quotient 3 (cw_visibility w)). split; [apply quotient_shown|].
      apply joined_contains. null (cw_visibility w); [contradiction|]. unfold divided_text. listed. }
  split.
  - intros V. apply joined_contains. unfold wind_icon. cbn [adaptCurrentWeather pw_isWindVariable]. rewrite V. listed.
  - intros V S. exists (js_int (cw_windDirection w)). split; [apply int_shown|]. apply joined_contains. unfold wind_icon. cbn [adaptCurrentWeather pw_isWindVariable pw_windDirection]. rewrite V.
    null (cw_windDirection w); [contradiction|]. cbn [js_template]. listed.
Qed.
(** What is shown instead of a missing value *)
Theorem pressure_zero : forall w widget, ~ specified (cw_atmosphericPressure w) -> makeWeatherWidget (adaptCurrentWeather w js_valueNotSpecified) true = Ok widget ->
  contains (element "span" "ww_pres_inhg" "0") widget.
Proof.
  intros w widget S E. destruct (widget_pieces true w) as (icon & X & _). rewrite E in X. apply ok_same in X. rewrite X. apply joined_contains.
  unfold pieces. cbn [adaptCurrentWeather pw_atmosphericPressure]. null (cw_atmosphericPressure w); [|contradiction]. change (divided_text 2 None) with "0". listed.
Qed.
Theorem visibility_zero : forall w widget, ~ specified (cw_visibility w) -> makeWeatherWidget (adaptCurrentWeather w js_valueNotSpecified) false = Ok widget ->
  contains (element "span" "ww_vis_km" "0") widget.
Proof.
  intros w widget S E. destruct (widget_pieces false w) as (icon & X & _). rewrite E in X. apply ok_same in X. rewrite X. apply joined_contains.
  unfold pieces. cbn [adaptCurrentWeather pw_visibility]. null (cw_visibility w); [|contradiction]. change (divided_text 3 None) with "0". listed.
Qed.
Theorem direction_null : forall imperial w widget, ~ specified (cw_windDirection w) -> cw_isWindVariable w = false ->
  makeWeatherWidget (adaptCurrentWeather w js_valueNotSpecified) imperial = Ok widget ->
  contains "<div class=""ww_wind_dir_icon"" style=""transform: rotate(nulldeg) scaleY(-1);"">" widget.
Proof.
  intros imperial w widget S V E. destruct (widget_pieces imperial w) as (icon & X & _). rewrite E in X. apply ok_same in X. rewrite X. apply joined_contains.
  unfold pieces, wind_icon. cbn [adaptCurrentWeather pw_isWindVariable pw_windDirection]. rewrite V. null (cw_windDirection w); [|contradiction]. cbn [js_template]. listed.
Qed.
Theorem zero_pressure : exists report w, (forall pow, getCurrentWeather pow true report "" 2020 1 1 true = Ok w) /\ ~ specified (cw_atmosphericPressure w)
  /\ forall widget, makeWeatherWidget (adaptCurrentWeather w js_valueNotSpecified) true = Ok widget -> contains (element "span" "ww_pres_inhg" "0") widget.
Proof.
  eexists "METAR ZZZZ 010000Z 09015KT 9999=", _. split; [intros pow; vm_compute; reflexivity|]. split; [intros H; apply H; reflexivity|].
  intros widget. apply pressure_zero. intros H; apply H; reflexivity.
Qed.
Theorem zero_visibility : exists report w, (forall pow, getCurrentWeather pow true report "" 2020 1 1 false = Ok w) /\ ~ specified (cw_visibility w)
  /\ forall widget, makeWeatherWidget (adaptCurrentWeather w js_valueNotSpecified) false = Ok widget -> contains (element "span" "ww_vis_km" "0") widget.
Proof.
  eexists "METAR ZZZZ 010000Z 09015KT ////=", _. split; [intros pow; vm_compute; reflexivity|]. split; [intros H; apply H; reflexivity|].
  intros widget. apply visibility_zero. intros H; apply H; reflexivity.
Qed.
Theorem null_direction : exists report w, (forall pow, getCurrentWeather pow true report "" 2020 1 1 false = Ok w) /\ ~ specified (cw_windDirection w) /\ cw_isWindVariable w = false
  /\ forall widget, makeWeatherWidget (adaptCurrentWeather w js_valueNotSpecified) false = Ok widget ->
     contains "<div class=""ww_wind_dir_icon"" style=""transform: rotate(nulldeg) scaleY(-1);"">" widget.
Proof.
  eexists "METAR ZZZZ 010000Z ///15KT 9999=", _. split; [intros pow; vm_compute; reflexivity|]. split; [intros H; apply H; reflexivity|]. split; [reflexivity|].
  intros widget. apply direction_null; [intros H; apply H; reflexivity|reflexivity].
Qed.
Theorem no_icon : exists report w, (forall pow, getCurrentWeather pow true report "" 2020 1 1 false = Ok w) /\ cw_weather w <> []
  /\ makeWeatherIcon (adaptCurrentWeather w js_valueNotSpecified) false = Ok icon_unknown.
Proof. eexists "METAR ZZZZ 010000Z +SHPL=", _. split; [intros pow; vm_compute; reflexivity|]. split; [discriminate|vm_compute; reflexivity]. Qed.
