(** Specification for C32: how weather phenomena are written in a report. *)
From Verif Require Import Prim Regex Float Values Weather Groups1 Groups3 SpecWeather SpecNumeral.
Local Open Scope string_scope.

Definition weather_letters (w : WpWeather) : string :=
  match w with
  | W_DRIZZLE => "DZ" | W_RAIN => "RA" | W_SNOW => "SN" | W_SNOW_GRAINS => "SG"
  | W_ICE_CRYSTALS => "IC" | W_ICE_PELLETS => "PL" | W_HAIL => "GR" | W_SMALL_HAIL => "GS"
  | W_UNDETERMINED => "UP" | W_MIST => "BR" | W_FOG => "FG" | W_SMOKE => "FU"
  | W_VOLCANIC_ASH => "VA" | W_DUST => "DU" | W_SAND => "SA" | W_HAZE => "HZ" | W_SPRAY => "PY"
  | W_DUST_WHIRLS => "PO" | W_SQUALLS => "SQ" | W_FUNNEL_CLOUD => "FC" | W_SANDSTORM => "SS"
  | W_DUSTSTORM => "DS" | W_NOT_REPORTED => "//" | W_other _ => ""
  end.
Definition descriptor_letters (d : WpDescriptor) : string :=
  match d with
  | D_NONE => "" | D_SHALLOW => "MI" | D_PARTIAL => "PR" | D_PATCHES => "BC"
  | D_LOW_DRIFTING => "DR" | D_BLOWING => "BL" | D_SHOWERS => "SH" | D_THUNDERSTORM => "TS"
  | D_FREEZING => "FZ" | D_other _ => ""
  end.
(** Moderate intensity has no sign. *)
Definition qualifier_letters (q : WpQualifier) : string :=
  match q with
  | Q_NONE | Q_MODERATE => "" | Q_RECENT => "RE" | Q_VICINITY => "VC" | Q_LIGHT => "-"
  | Q_HEAVY => "+" | Q_other _ => ""
  end.
Fixpoint all_letters (ws : list WpWeather) : string :=
  match ws with [] => "" | w :: ws' => weather_letters w ++ all_letters ws' end.
Definition written (q : WpQualifier) (d : WpDescriptor) (ws : list WpWeather) : string :=
  qualifier_letters q ++ descriptor_letters d ++ all_letters ws.

(** *** Which combinations are reported *)
Definition precipitation : list WpWeather :=
  [W_DRIZZLE; W_RAIN; W_SNOW; W_SNOW_GRAINS; W_ICE_PELLETS; W_HAIL; W_SMALL_HAIL; W_UNDETERMINED].
(** precipitation that falls in showers, and precipitation that freezes *)
Definition showery : list WpWeather :=
  [W_RAIN; W_SNOW; W_ICE_PELLETS; W_HAIL; W_SMALL_HAIL; W_UNDETERMINED].
Definition freezing_kinds : list WpWeather := [W_DRIZZLE; W_RAIN; W_UNDETERMINED].
(** phenomena without intensity, and those in the vicinity *)
Definition obscurations : list (WpDescriptor * list WpWeather) :=
  [(D_SHALLOW, [W_FOG]); (D_PARTIAL, [W_FOG]); (D_PATCHES, [W_FOG]); (D_FREEZING, [W_FOG]);
   (D_LOW_DRIFTING, [W_DUST]); (D_LOW_DRIFTING, [W_SAND]); (D_LOW_DRIFTING, [W_SNOW]);
   (D_BLOWING, [W_DUST]); (D_BLOWING, [W_SAND]); (D_BLOWING, [W_SNOW]); (D_BLOWING, [W_SPRAY]);
   (D_THUNDERSTORM, []);
   (D_NONE, [W_ICE_CRYSTALS]); (D_NONE, [W_MIST]); (D_NONE, [W_FOG]); (D_NONE, [W_SMOKE]);
   (D_NONE, [W_VOLCANIC_ASH]); (D_NONE, [W_DUST]); (D_NONE, [W_SAND]); (D_NONE, [W_HAZE]);
   (D_NONE, [W_DUST_WHIRLS]); (D_NONE, [W_SQUALLS]); (D_NONE, [W_FUNNEL_CLOUD]);
   (D_NONE, [W_DUSTSTORM]); (D_NONE, [W_SANDSTORM]);
   (D_NONE, [W_DUSTSTORM; W_SANDSTORM]); (D_NONE, [W_SANDSTORM; W_DUSTSTORM])].
Definition in_vicinity : list (WpDescriptor * list WpWeather) :=
  [(D_THUNDERSTORM, []); (D_SHOWERS, []); (D_NONE, [W_FOG]); (D_NONE, [W_DUST_WHIRLS]);
   (D_NONE, [W_VOLCANIC_ASH]); (D_NONE, [W_FUNNEL_CLOUD]); (D_BLOWING, [W_DUST]);
   (D_BLOWING, [W_SAND]); (D_BLOWING, [W_SNOW]); (D_NONE, [W_DUSTSTORM]); (D_NONE, [W_SANDSTORM])].
Definition heavy_only : list (list WpWeather) :=
  [[W_FUNNEL_CLOUD]; [W_DUSTSTORM]; [W_SANDSTORM]; [W_DUSTSTORM; W_SANDSTORM];
   [W_SANDSTORM; W_DUSTSTORM]].

(** Qualifiers are written in the body of a report ([true]), not before the times at which weather
    began and ended ([false]). *)
Inductive recognised : bool -> WpQualifier -> WpDescriptor -> list WpWeather -> Prop :=
| rec_precipitation : forall (b : bool) (q : WpQualifier) (d : WpDescriptor) (ws : list WpWeather),
    In q (if b then [Q_LIGHT; Q_MODERATE; Q_HEAVY; Q_RECENT] else [Q_NONE]) ->
    In d [D_NONE; D_SHOWERS; D_THUNDERSTORM; D_FREEZING] ->
    ws <> [] -> List.length ws <= 3 -> NoDup ws -> Forall (fun w => In w precipitation) ws ->
    (d = D_SHOWERS -> Exists (fun w => In w showery) ws) ->
    (d = D_FREEZING -> Exists (fun w => In w freezing_kinds) ws) ->
    recognised b q d ws
| rec_obscuration : forall b d ws, In (d, ws) obscurations -> recognised b Q_NONE d ws
| rec_vicinity : forall d ws, In (d, ws) in_vicinity -> recognised true Q_VICINITY d ws
| rec_heavy : forall ws, In ws heavy_only -> recognised true Q_HEAVY D_NONE ws
| rec_recent_thunderstorm : recognised true Q_RECENT D_THUNDERSTORM [].

(** *** Times at which weather began and ended *)
Definition event_letter (ev : WpEvent) : string :=
  match ev with Ev_BEGINNING => "B" | Ev_ENDING => "E" | _ => "" end.
(** The text of one event, after the phenomenon [prev] of the event before it, in a report of the time
    [t]: a phenomenon, B or E, and hours and minutes; the phenomenon may be left out if it is
    the one before, and the hour if it is that of the report. *)
Definition event_text (t : MetafTime) (prev : WeatherPhenomena) (s : string) (p : WeatherPhenomena) : Prop :=
  exists ph ev h m q d ws hour minute,
    s = ph ++ event_letter ev ++ h ++ m
    /\ (ev = Ev_BEGINNING \/ ev = Ev_ENDING)
    /\ (h = "" /\ hour = hourValue t \/ numeral 2 h hour) /\ numeral 2 m minute
    /\ (ph = "" /\ (exists e, shows prev q d ws e) /\ Wp_isValid prev = Ok true
        \/ recognised false q d ws /\ ph = written q d ws)
    /\ shows p q d ws ev /\ wpTm p = Some (mkTime None hour minute).
Inductive events (t : MetafTime) : WeatherPhenomena -> list string -> list WeatherPhenomena -> Prop :=
| no_events : forall prev, events t prev [] []
| one_event : forall prev s p ss ps,
    event_text t prev s p -> events t p ss ps -> events t prev (s :: ss) (p :: ps).
Definition concatenated (ss : list string) : string := List.fold_right String.append "" ss.

(** *** Words of the report *)
(** The phenomenon reported by one word of the METAR or TAF body; two slashes in METAR stand for
    weather that cannot be observed, and recent weather is not reported in TAF. *)
Definition body_weather (part : ReportPart) (s : string) (p : WeatherPhenomena) : Prop :=
  part = RP_METAR /\ s = "RE//" /\ shows p Q_RECENT D_NONE [W_NOT_REPORTED] Ev_NONE /\ wpTm p = None
  \/ part = RP_METAR /\ s = "//" /\ shows p Q_NONE D_NONE [W_NOT_REPORTED] Ev_NONE /\ wpTm p = None
  \/ exists q d ws, (part = RP_METAR \/ part = RP_TAF /\ q <> Q_RECENT)
       /\ recognised true q d ws /\ s = written q d ws /\ shows p q d ws Ev_NONE /\ wpTm p = None.
(** What the words of a weather group say, by the type of the group. *)
Definition weather_words (part : ReportPart) (words : list string) (g : WeatherGroup) : Prop :=
  match wx_t g with
  | Wx_CURRENT => Forall2 (body_weather part) words (WeatherGroup_weatherPhenomena g)
      /\ Forall (fun p => Wp_qualifier p <> Q_RECENT) (WeatherGroup_weatherPhenomena g)
  | Wx_RECENT => Forall2 (body_weather part) words (WeatherGroup_weatherPhenomena g)
      /\ Forall (fun p => Wp_qualifier p = Q_RECENT) (WeatherGroup_weatherPhenomena g)
  | Wx_EVENT => part = RP_RMK /\ exists t ss ps, words = [concatenated ss] /\ ss <> []
      /\ events t WeatherPhenomena_default ss ps /\ WeatherGroup_weatherPhenomena g = firstn 20 ps
  | Wx_NSW => (part = RP_METAR \/ part = RP_TAF) /\ words = ["NSW"] /\ WeatherGroup_weatherPhenomena g = []
  | Wx_PWINO => part = RP_RMK /\ words = ["PWINO"] /\ WeatherGroup_weatherPhenomena g = []
  | Wx_TSNO => part = RP_RMK /\ words = ["TSNO"] /\ WeatherGroup_weatherPhenomena g = []
  | Wx_WX_MISG => part = RP_RMK /\ words = firstn (List.length words) ["WX"; "MISG"] /\ WeatherGroup_weatherPhenomena g = []
      /\ (WeatherGroup_isValid g = Ok true -> words = ["WX"; "MISG"])
  | Wx_TS_LTNG_TEMPO_UNAVBL => part = RP_RMK /\ words = firstn (List.length words) ["TS/LTNG"; "TEMPO"; "UNAVBL"]
      /\ WeatherGroup_weatherPhenomena g = []
      /\ (WeatherGroup_isValid g = Ok true -> words = ["TS/LTNG"; "TEMPO"; "UNAVBL"])
  end.
