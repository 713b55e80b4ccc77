(** Specification for C58: the words of a weather group and what they say. *)
From Coq Require Import String List NArith.
From Verif Require Import Prim Values Weather Groups1 Groups3 SpecNumeral SpecPhenomena.
Import ListNotations.
Local Open Scope string_scope.

(** What the accessors of a weather phenomenon return *)
Record phenomenon := mkPhenomenon
  { ph_qualifier : WpQualifier; ph_descriptor : WpDescriptor; ph_weather : list WpWeather;
    ph_event : WpEvent; ph_time : option MetafTime }.
Definition seen (p : WeatherPhenomena) : phenomenon :=
  mkPhenomenon (Wp_qualifier p) (Wp_descriptor p) (Wp_weather p) (Wp_event p) (wpTm p).

(** One word of the body. In METAR two slashes stand for weather that cannot be observed; TAF has no
    recent weather. *)
Inductive Word (part : ReportPart) : string -> phenomenon -> Prop :=
| Word_recent_unknown : part = RP_METAR -> Word part "RE//" (mkPhenomenon Q_RECENT D_NONE [W_NOT_REPORTED] Ev_NONE None)
| Word_unknown : part = RP_METAR -> Word part "//" (mkPhenomenon Q_NONE D_NONE [W_NOT_REPORTED] Ev_NONE None)
| Word_weather : forall q d ws, part = RP_METAR \/ part = RP_TAF /\ q <> Q_RECENT -> recognised true q d ws ->
    Word part (written q d ws) (mkPhenomenon q d ws Ev_NONE None).

(** The text of one event in a report of the time [now], after the event [before] if there is one: a
    phenomenon, B or E, and hour and minute. The phenomenon may be left out if it is the one before
    and that had a proper time; the hour if it is the hour of the report. *)
Inductive Event (now : MetafTime) (before : option phenomenon) : string -> phenomenon -> Prop :=
| Event_text : forall name d ws e h hour m minute,
    recognised false Q_NONE d ws /\ name = written Q_NONE d ws
    \/ name = "" /\ (exists e' hour' minute', before = Some (mkPhenomenon Q_NONE d ws e' (Some (mkTime None hour' minute')))
                                             /\ (hour' <= 24)%N /\ (minute' <= 59)%N) ->
    e = Ev_BEGINNING \/ e = Ev_ENDING ->
    h = "" /\ hour = hourValue now \/ numeral 2 h hour ->
    numeral 2 m minute ->
    Event now before (name ++ event_letter e ++ h ++ m) (mkPhenomenon Q_NONE d ws e (Some (mkTime None hour minute))).
Inductive Events (now : MetafTime) : option phenomenon -> list string -> list phenomenon -> Prop :=
| Events_none : forall before, Events now before [] []
| Events_one : forall before s p ss ps, Event now before s p -> Events now (Some p) ss ps -> Events now before (s :: ss) (p :: ps).

(** [now]: the time of the report, if known *)
Inductive WeatherTold (part : ReportPart) (now : option MetafTime) : list string -> WxType * list phenomenon -> Prop :=
| Told_current : forall words ps, words <> [] -> List.length words <= 20 -> Forall2 (Word part) words ps ->
    Forall (fun p => ph_qualifier p <> Q_RECENT) ps -> WeatherTold part now words (Wx_CURRENT, ps)
| Told_recent : forall words ps, words <> [] -> List.length words <= 20 -> Forall2 (Word part) words ps ->
    Forall (fun p => ph_qualifier p = Q_RECENT) ps -> WeatherTold part now words (Wx_RECENT, ps)
| Told_events : forall t ss ps, part = RP_RMK -> now = Some t -> ss <> [] -> Events t None ss ps ->
    WeatherTold part now [concatenated ss] (Wx_EVENT, firstn 20 ps)
| Told_none : part = RP_METAR \/ part = RP_TAF -> WeatherTold part now ["NSW"] (Wx_NSW, [])
| Told_sensor : part = RP_RMK -> WeatherTold part now ["PWINO"] (Wx_PWINO, [])
| Told_no_lightning : part = RP_RMK -> WeatherTold part now ["TSNO"] (Wx_TSNO, [])
| Told_missing : part = RP_RMK -> WeatherTold part now ["WX"; "MISG"] (Wx_WX_MISG, [])
| Told_lightning_out : part = RP_RMK -> WeatherTold part now ["TS/LTNG"; "TEMPO"; "UNAVBL"] (Wx_TS_LTNG_TEMPO_UNAVBL, []).
(** What the accessors of a weather group return *)
Definition weather_told (g : WeatherGroup) : WxType * list phenomenon := (wx_t g, map seen (WeatherGroup_weatherPhenomena g)).
