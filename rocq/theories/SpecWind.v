(** Specification for C50: what the words of a wind group say (api_windgroup.rst). *)
From Coq Require Import NArith List String.
From Verif Require Import Prim Values Groups1 Parser SpecNumeral SpecTrend SpecTexts.
Import ListNotations.
Local Open Scope string_scope.
Local Open Scope N_scope.

(** What a wind group tells *)
Record wind := Blows
  { w_type : WiType; w_direction : Direction; w_speed : Speed; w_gust : Speed; w_height : Distance;
    w_begin : Direction; w_end : Direction; w_time : option MetafTime; w_runway : option Runway }.
Definition told_by (g : WindGroup) : wind :=
  Blows (wi_type g) (wi_dir g) (wi_speed g) (wi_gust g) (wi_height g) (wi_vsecBegin g) (wi_vsecEnd g)
    (wi_evTime g) (wi_rw g).
Definition no_direction : Direction := mkDir 0 DT_NOT_REPORTED.
Definition no_speed : Speed := mkSpeed None KNOTS.
Definition no_height : Distance := mkDist DM_NONE None METERS.
(** Nothing but the type *)
Definition only (t : WiType) : wind := Blows t no_direction no_speed no_speed no_height no_direction no_direction None None.

(** A number for a speed: not omitted and not slashes *)
Definition Speed_number (u : SpeedUnit) (s : string) (t : Speed) : Prop := Speed_text u s t /\ s <> "" /\ s <> "//".
(** The letter G and the speed of gusts *)
Definition Gusts (u : SpeedUnit) (s : string) (t : Speed) : Prop :=
  s = "" /\ t = no_speed \/ exists n, s = "G" ++ n /\ Speed_number u n t.
(** Direction, speed, gusts if any, and unit *)
Definition Blowing (s : string) (dir : Direction) (speed gust : Speed) : Prop :=
  exists d v g u unit, s = d ++ v ++ g ++ u /\ In (u, unit) speed_units
    /\ Degrees d dir /\ Speed_text unit v speed /\ v <> "" /\ Gusts unit g gust.
Definition Calm (s : string) (speed : Speed) : Prop :=
  exists u unit, s = "00000" ++ u /\ In (u, unit) speed_units /\ speed = mkSpeed (Some 0) unit.
(** A direction in figures *)
Definition Bearing_figures (s : string) (d : Direction) : Prop :=
  exists v, numeral 3 s v /\ v mod 10 = 0 /\ d = mkDir v DT_VALUE_DEGREES.
Definition Sector_text (s : string) (from till : Direction) : Prop :=
  exists a b, s = a ++ "V" ++ b /\ Bearing_figures a from /\ Bearing_figures b till.
(** Minutes of the hour of the report, or hours and minutes *)
Definition Event_time (now : option MetafTime) (s : string) (t : MetafTime) : Prop :=
  (exists report m, now = Some report /\ numeral 2 s m /\ t = mkTime None (hourValue report) m)
  \/ hour_minute s t.

(** The sequences of words which make up one wind group, and what the group tells. [now] is the
    time at which the report was issued. *)
Inductive Wind (part : ReportPart) (now : option MetafTime) : list string -> wind -> Prop :=
| Wind_calm : forall w speed, part = RP_METAR \/ part = RP_TAF -> Calm w speed ->
    Wind part now [w] (Blows Wi_SURFACE_WIND_CALM no_direction speed no_speed no_height no_direction no_direction None None)
| Wind_surface : forall w dir speed gust, part = RP_METAR \/ part = RP_TAF -> Blowing w dir speed gust ->
    (forall c, ~ Calm w c) ->
    Wind part now [w] (Blows Wi_SURFACE_WIND dir speed gust no_height no_direction no_direction None None)
| Wind_shear : forall h w v dir speed gust, part = RP_METAR \/ part = RP_TAF -> numeral 3 h v -> Blowing w dir speed gust ->
    Wind part now ["WS" ++ h ++ "/" ++ w]
      (Blows Wi_WIND_SHEAR dir speed gust (mkDist DM_NONE (Some (100 * v)) FEET) no_direction no_direction None None)
| Wind_sector : forall w from till, part = RP_METAR \/ part = RP_TAF -> Sector_text w from till ->
    Wind part now [w] (Blows Wi_VARIABLE_WIND_SECTOR no_direction no_speed no_speed no_height from till None None)
| Wind_surface_sector : forall w dir speed gust x from till, part = RP_METAR \/ part = RP_TAF ->
    Blowing w dir speed gust -> (forall c, ~ Calm w c) -> Sector_text x from till ->
    Wind part now [w; x] (Blows Wi_SURFACE_WIND_WITH_VARIABLE_SECTOR dir speed gust no_height from till None None)
| Wind_runway : forall w r, part = RP_METAR -> Runway_text true w r ->
    Wind part now ["WS"; w] (Blows Wi_WIND_SHEAR_IN_LOWER_LAYERS no_direction no_speed no_speed no_height no_direction no_direction None (Some r))
| Wind_all_runways : part = RP_METAR ->
    Wind part now ["WS"; "ALL"; "RWY"]
      (Blows Wi_WIND_SHEAR_IN_LOWER_LAYERS no_direction no_speed no_speed no_height no_direction no_direction None (Some (mkRunway 88 Rw_NONE)))
| Wind_conditions : part = RP_TAF -> Wind part now ["WSCONDS"] (only Wi_WSCONDS)
| Wind_missing : part = RP_RMK -> Wind part now ["WND"; "MISG"] (only Wi_WND_MISG)
| Wind_peak : forall d v x dir speed t, part = RP_RMK ->
    Bearing_figures d dir -> Speed_number KNOTS v speed -> Event_time now x t ->
    Wind part now ["PK"; "WND"; d ++ v ++ "/" ++ x]
      (Blows Wi_PEAK_WIND dir speed no_speed no_height no_direction no_direction (Some t) None)
| Wind_shift : part = RP_RMK -> Wind part now ["WSHFT"] (only Wi_WIND_SHIFT)
| Wind_shift_front : part = RP_RMK -> Wind part now ["WSHFT"; "FROPA"] (only Wi_WIND_SHIFT_FROPA)
| Wind_shift_time : forall x t, part = RP_RMK -> Event_time now x t ->
    Wind part now ["WSHFT"; x]
      (Blows Wi_WIND_SHIFT no_direction no_speed no_speed no_height no_direction no_direction (Some t) None)
| Wind_shift_time_front : forall x t, part = RP_RMK -> Event_time now x t ->
    Wind part now ["WSHFT"; x; "FROPA"]
      (Blows Wi_WIND_SHIFT_FROPA no_direction no_speed no_speed no_height no_direction no_direction (Some t) None).
