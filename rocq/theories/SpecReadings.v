(** Specification for C53: what the words of groups of temperature, pressure, pressure tendency, sea
    surface and runway state say (api_temperaturegroup.rst, api_pressuregroup.rst,
    api_pressuretendencygroup.rst, api_seasurfacegroup.rst, api_runwaystategroup.rst). *)
From Coq Require Import NArith QArith List String.
From Verif Require Import Prim Float Values Groups1 Groups3 Groups4 Parser SpecReal SpecNumeral SpecScale SpecMinMax SpecTexts.
Import ListNotations.
Local Open Scope string_scope.
Local Open Scope N_scope.

(** ** Temperature *)
Definition Degrees_text (s : string) (t : Temperature) : Prop :=
  s = "//" /\ t = no_temperature \/ whole_degrees s t.
Inductive Temperatures (part : ReportPart) : list string -> TgType -> Temperature -> Temperature -> Prop :=
| Temperatures_whole : forall a b t d, part = RP_METAR -> Degrees_text a t ->
    b = "" /\ d = no_temperature \/ Degrees_text b d ->
    Temperatures part [a ++ "/" ++ b] Tg_TEMPERATURE_AND_DEW_POINT t d
| Temperatures_tenths : forall a b t d, part = RP_RMK -> tenths_of_degree a t ->
    b = "" /\ d = no_temperature \/ tenths_of_degree b d ->
    Temperatures part ["T" ++ a ++ b] Tg_TEMPERATURE_AND_DEW_POINT t d
| Temperatures_missing : part = RP_RMK -> Temperatures part ["T"; "MISG"] Tg_T_MISG no_temperature no_temperature
| Temperatures_no_dew_point : part = RP_RMK -> Temperatures part ["TD"; "MISG"] Tg_TD_MISG no_temperature no_temperature.

(** ** Pressure *)
Definition no_pressure : Pressure := mkPressure None HECTOPASCAL.
Definition Qnh_text (s : string) (p : Pressure) : Prop :=
  s = "A////" /\ p = mkPressure None INCHES_HG
  \/ s = "Q////" /\ p = mkPressure None HECTOPASCAL
  \/ (exists d v x, s = "A" ++ d /\ numeral 4 d v /\ p = mkPressure (Some x) INCHES_HG /\ within (1 # 100000) x (parts v 100))
  \/ exists d v x, s = "Q" ++ d /\ numeral 4 d v /\ p = mkPressure (Some x) HECTOPASCAL /\ is_exactly x (parts v 1).
Definition Lowest_qnh_text (s : string) (p : Pressure) : Prop :=
  exists d v x, s = "QNH" ++ d ++ "INS" /\ numeral 4 d v /\ p = mkPressure (Some x) INCHES_HG /\ within (1 # 100000) x (parts v 100).
(** Tens, ones and tenths of a pressure from 950 to 1050 *)
Definition Slp_text (s : string) (p : Pressure) : Prop :=
  exists d v x q, s = "SLP" ++ d /\ numeral 3 d v /\ p = mkPressure (Some x) HECTOPASCAL /\ within (1 # 10000) x q
    /\ (exists hundreds : Z, q == parts v 10 + (hundreds * 100 # 1))%Q /\ (950 <= q /\ q < 1050)%Q.
(** In millimetres, and possibly once more in hectopascals, which is not looked at *)
Definition Qfe_text (s : string) (p : Pressure) : Prop :=
  exists d v rest x, s = "QFE" ++ d ++ rest /\ numeral 3 d v /\ p = mkPressure (Some x) MM_HG /\ is_exactly x (parts v 1)
    /\ (rest = "" \/ exists d2 v2, rest = "/" ++ d2 /\ numeral 4 d2 v2).
Inductive Pressures (part : ReportPart) : list string -> PgType -> Pressure -> Prop :=
| Pressures_qnh : forall w p, part = RP_METAR \/ part = RP_RMK -> Qnh_text w p -> Pressures part [w] Pg_OBSERVED_QNH p
| Pressures_lowest : forall w p, part = RP_TAF -> Lowest_qnh_text w p -> Pressures part [w] Pg_FORECAST_LOWEST_QNH p
| Pressures_slp : forall w p, part = RP_RMK -> Slp_text w p -> Pressures part [w] Pg_OBSERVED_SLP p
| Pressures_qfe : forall w p, part = RP_RMK -> Qfe_text w p -> Pressures part [w] Pg_OBSERVED_QFE p
| Pressures_no_slp : part = RP_RMK -> Pressures part ["SLPNO"] Pg_SLPNO no_pressure
| Pressures_missing : part = RP_RMK -> Pressures part ["PRES"; "MISG"] Pg_PRES_MISG no_pressure.

(** ** Pressure tendency *)
(** The code, what the pressure did, and how it compares with that of three hours before *)
Definition tendencies : list (string * (PtType * PtTrend)) :=
  [("0", (Pt_INCREASING_THEN_DECREASING, Ptt_HIGHER_OR_SAME)); ("1", (Pt_INCREASING_MORE_SLOWLY, Ptt_HIGHER));
   ("2", (Pt_INCREASING, Ptt_HIGHER)); ("3", (Pt_INCREASING_MORE_RAPIDLY, Ptt_HIGHER)); ("4", (Pt_STEADY, Ptt_SAME));
   ("5", (Pt_DECREASING_THEN_INCREASING, Ptt_LOWER_OR_SAME)); ("6", (Pt_DECREASING_MORE_SLOWLY, Ptt_LOWER));
   ("7", (Pt_DECREASING, Ptt_LOWER)); ("8", (Pt_DECREASING_MORE_RAPIDLY, Ptt_LOWER));
   ("/", (Pt_NOT_REPORTED, Ptt_NOT_REPORTED))].
Definition Difference (s : string) (p : Pressure) : Prop :=
  s = "///" /\ p = mkPressure None HECTOPASCAL
  \/ exists v x, numeral 3 s v /\ p = mkPressure (Some x) HECTOPASCAL /\ within (1 # 100000) x (parts v 10).
Inductive Tendency (part : ReportPart) : list string -> PtType -> PtTrend -> Pressure -> Prop :=
| Tendency_rising : part = RP_RMK -> Tendency part ["PRESRR"] Pt_RISING_RAPIDLY Ptt_NOT_REPORTED no_pressure
| Tendency_falling : part = RP_RMK -> Tendency part ["PRESFR"] Pt_FALLING_RAPIDLY Ptt_NOT_REPORTED no_pressure
| Tendency_code : forall c t trend d p, part = RP_RMK -> In (c, (t, trend)) tendencies -> Difference d p ->
    Tendency part ["5" ++ c ++ d] t trend p.

(** ** Sea surface *)
Definition Waves (s : string) (w : WaveHeight) : Prop :=
  s = "S/" /\ w = mkWh Wh_STATE_OF_SURFACE None
  \/ s = "H///" /\ w = mkWh Wh_WAVE_HEIGHT None
  \/ (exists st, In (s, st) sea_states /\ whType w = Wh_STATE_OF_SURFACE /\ WaveHeight_stateOfSurface w = st)
  \/ exists d v x, s = "H" ++ d /\ (numeral 1 d v \/ numeral 2 d v \/ numeral 3 d v)
       /\ whType w = Wh_WAVE_HEIGHT /\ WaveHeight_waveHeight w = Some x /\ within (1 # 100000) x (parts v 10).
(** Temperatures below zero are not accepted here. *)
Inductive Sea (part : ReportPart) : list string -> Temperature -> WaveHeight -> Prop :=
| Sea_word : forall a b t w, part = RP_METAR ->
    a = "//" /\ t = no_temperature \/ (exists v, numeral 2 a v /\ t = mkTemp (Some (Z.of_N v)) false false) ->
    Waves b w -> Sea part ["W" ++ a ++ "/" ++ b] t w.

(** ** Runway state *)
Definition deposit_codes : list (string * RsDeposits) :=
  [("0", De_CLEAR_AND_DRY); ("1", De_DAMP); ("2", De_WET_AND_WATER_PATCHES); ("3", De_RIME_AND_FROST_COVERED);
   ("4", De_DRY_SNOW); ("5", De_WET_SNOW); ("6", De_SLUSH); ("7", De_ICE); ("8", De_COMPACTED_OR_ROLLED_SNOW);
   ("9", De_FROZEN_RUTS_OR_RIDGES); ("/", De_NOT_REPORTED)].
Definition extent_codes : list (string * RsExtent) :=
  [("0", Ex_NONE); ("1", Ex_LESS_THAN_10_PERCENT); ("2", Ex_FROM_11_TO_25_PERCENT); ("3", Ex_RESERVED_3);
   ("4", Ex_RESERVED_4); ("5", Ex_FROM_26_TO_50_PERCENT); ("6", Ex_RESERVED_6); ("7", Ex_RESERVED_7);
   ("8", Ex_RESERVED_8); ("9", Ex_MORE_THAN_51_PERCENT); ("/", Ex_NOT_REPORTED)].
Definition Depth (s : string) (p : Precipitation) : Prop :=
  s = "//" /\ p = mkPrecip None MM
  \/ exists v, numeral 2 s v /\ v <> 91
       /\ match deposit_depth v with
          | None => p = mkPrecip None MM
          | Some mm => exists x, p = mkPrecip (Some x) MM /\ is_exactly x (parts mm 1)
          end.
Definition Friction (s : string) (f : SurfaceFriction) : Prop :=
  s = "//" /\ SurfaceFriction_isReported f = false
  \/ s = "99" /\ SurfaceFriction_isUnreliable f = true
  \/ (exists ba, In (s, ba) braking_codes /\ sfType f = Sf_BRAKING_ACTION_REPORTED /\ SurfaceFriction_brakingAction f = ba)
  \/ exists v x, numeral 2 s v /\ v <= 90 /\ sfType f = Sf_SURFACE_FRICTION_REPORTED
       /\ SurfaceFriction_coefficient f = Some x /\ within (1 # 1000000) x (parts v 100).
Definition no_friction : SurfaceFriction := mkSf Sf_NOT_REPORTED 0.
Definition no_depth : Precipitation := mkPrecip None MM.
Definition all_runways : Runway := mkRunway 88 Rw_NONE.
Inductive Runway_state (part : ReportPart) : list string -> RunwayStateGroup -> Prop :=
| Runway_aerodrome : forall w, part = RP_METAR -> w = "SNOCLO" \/ w = "R/SNOCLO" ->
    Runway_state part [w] (mkRunwayState all_runways Rs_AERODROME_SNOCLO De_NOT_REPORTED Ex_NOT_REPORTED no_depth no_friction)
| Runway_closed : forall w r, part = RP_METAR -> Runway_text false w r ->
    Runway_state part [w ++ "/SNOCLO"] (mkRunwayState r Rs_RUNWAY_SNOCLO De_NOT_REPORTED Ex_NOT_REPORTED no_depth no_friction)
| Runway_cleared : forall w r d f, part = RP_METAR -> Runway_text false w r ->
    d = "" /\ f = no_friction \/ d <> "//" /\ Friction d f ->
    Runway_state part [w ++ "/" ++ d ++ "D"] (mkRunwayState r Rs_RUNWAY_CLRD De_NOT_REPORTED Ex_NOT_REPORTED no_depth f)
| Runway_clrd : forall w r d f, part = RP_METAR -> Runway_text false w r -> Friction d f ->
    Runway_state part [w ++ "/CLRD" ++ d] (mkRunwayState r Rs_RUNWAY_CLRD De_NOT_REPORTED Ex_NOT_REPORTED no_depth f)
| Runway_covered : forall w r a deposits b extent c depth d f, part = RP_METAR -> Runway_text false w r ->
    In (a, deposits) deposit_codes -> In (b, extent) extent_codes -> Depth c depth -> Friction d f ->
    Runway_state part [w ++ "/" ++ a ++ b ++ c ++ d]
      (mkRunwayState r (if string_dec c "99" then Rs_RUNWAY_NOT_OPERATIONAL else Rs_RUNWAY_STATE) deposits extent depth f).
