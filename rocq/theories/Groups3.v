(** Group classes Weather, Temperature, Pressure, RunwayState, SeaSurface, MinMaxTemperature and
    Precipitation (metaf.hpp 1374-1675, 5311-6007). Definitions only. *)

From Verif Require Import Prim Regex Float Values Weather Groups1 Groups2.
Local Open Scope string_scope.
Local Open Scope N_scope.

(** [a[size++] = x] for a C array of [cap] elements: out of bounds is undefined behaviour. *)
Definition array_push {A : Type} (cap : nat) (l : list A) (x : A) : res (list A) :=
  if Nat.ltb (List.length l) cap then Ok (l ++ [x])%list else Bad UB.

(* ------------------------------------------------------------------ *)
(** ** WeatherGroup (1374-1430, 5311-5446) *)

Inductive WxType := Wx_CURRENT | Wx_RECENT | Wx_EVENT | Wx_NSW | Wx_PWINO | Wx_WX_MISG | Wx_TSNO
| Wx_TS_LTNG_TEMPO_UNAVBL.
Scheme Equality for WxType.
Inductive WxInc := WxI_NONE | WxI_WX | WxI_TSLTNG | WxI_TSLTNG_TEMPO.
Scheme Equality for WxInc.
(** 1414-1418; the array [w] together with its size [wsz] is the list of its first [wsz] elements *)
Record WeatherGroup := mkWeather { wx_t : WxType; wx_w : list WeatherPhenomena; wx_inc : WxInc }.
Definition wSize : nat := 20.                                             (* 1415 *)
Definition Weather_of (t : WxType) (i : WxInc) : WeatherGroup := mkWeather t [] i. (* 1420 *)
Definition Weather_setInc (g : WeatherGroup) (i : WxInc) : WeatherGroup :=
  mkWeather (wx_t g) (wx_w g) i.
(** 5379-5384 *)
Definition WeatherGroup_weatherPhenomena (g : WeatherGroup) : list WeatherPhenomena := wx_w g.
(** 1389-1392 *)
Fixpoint Weather_allValid (l : list WeatherPhenomena) : res bool :=
  match l with
  | [] => Ok true
  | w :: l' => let! v := Wp_isValid w in if v then Weather_allValid l' else Ok false
  end.
(** 1388-1393 *)
Definition WeatherGroup_isValid (g : WeatherGroup) : res bool :=
  if negb (WxInc_beq (wx_inc g) WxI_NONE) then Ok false else Weather_allValid (wx_w g).

(** 5442-5446; [None] when the function returns false *)
Definition Weather_addWeatherPhenomena (g : WeatherGroup) (wp : WeatherPhenomena)
  : res (option WeatherGroup) :=
  if Nat.leb wSize (List.length (wx_w g)) then Ok None else
  let! l := array_push 20 (wx_w g) wp in
  Ok (Some (mkWeather (wx_t g) l (wx_inc g))).
(** the result of addWeatherPhenomena ignored (5426, 5437) *)
Definition Weather_addIgnoring (g : WeatherGroup) (wp : WeatherPhenomena) : res WeatherGroup :=
  let! o := Weather_addWeatherPhenomena g wp in
  Ok (match o with Some g' => g' | None => g end).

(** 5386-5403 *)
Definition Weather_parseWeatherWithoutEvent (group : string) (part : ReportPart)
  : res (option WeatherPhenomena) :=
  if negb (is_part part RP_METAR) && negb (is_part part RP_TAF) then Ok None else
  if is_part part RP_METAR && seqb group "RE//" then Ok (Some (Wp_notReported true)) else
  if is_part part RP_METAR && seqb group "//" then Ok (Some (Wp_notReported false)) else
  let? wp := Wp_fromString group true in
  if is_part part RP_TAF && WpQualifier_beq (Wp_qualifier wp) Q_RECENT then Ok None else
  Ok (Some wp).

(** 5414-5431: the loop of parseWeatherEvent, [n] characters left, the current one at [i];
    on success the position where the last event starts, the weather before it and the group *)
Fixpoint Weather_eventLoop (group : string) (reportTime : MetafTime) (n i eventStartPos : nat)
  (lastDigit : bool) (prev : WeatherPhenomena) (result : WeatherGroup)
  : res (option (nat * WeatherPhenomena * WeatherGroup)) :=
  match n with
  | O => Ok (Some (eventStartPos, prev, result))
  | S n' =>
    let! c := sget group i in
    let currDigit := is_digit c in
    if negb currDigit && lastDigit then
      let eventLen := (i - eventStartPos)%nat in
      if Nat.ltb eventLen 3 then Ok None else
      let! s := substr group eventStartPos eventLen in
      let? w := Wp_fromWeatherBeginEndString s reportTime prev in
      let! result' := Weather_addIgnoring result w in
      Weather_eventLoop group reportTime n' (S i) i currDigit w result'
    else Weather_eventLoop group reportTime n' (S i) eventStartPos currDigit prev result
  end.
(** 5405-5439 *)
Definition Weather_parseWeatherEvent (group : string) (reportTime : MetafTime)
  : res (option WeatherGroup) :=
  let? st := Weather_eventLoop group reportTime (slen group) 0 0 false WeatherPhenomena_default
               (Weather_of Wx_EVENT WxI_NONE) in
  let '(eventStartPos, prev, result) := st in
  let! s := substr_from group eventStartPos in
  let? w := Wp_fromWeatherBeginEndString s reportTime prev in
  let! result' := Weather_addIgnoring result w in
  Ok (Some result').

(** 5311-5335 *)
Definition WeatherGroup_parse (group : string) (part : ReportPart) (md : ReportMetadata)
  : res (option WeatherGroup) :=
  or_else (if is_part part RP_METAR || is_part part RP_TAF then
             if seqb group "NSW" then Ok (Some (Weather_of Wx_NSW WxI_NONE)) else
             let? wp := Weather_parseWeatherWithoutEvent group part in
             Ok (Some (mkWeather
               (if WpQualifier_beq (Wp_qualifier wp) Q_RECENT then Wx_RECENT else Wx_CURRENT)
               [wp] WxI_NONE))
           else Ok None) (
  if is_part part RP_RMK then
    if seqb group "PWINO" then Ok (Some (Weather_of Wx_PWINO WxI_NONE)) else
    if seqb group "TSNO" then Ok (Some (Weather_of Wx_TSNO WxI_NONE)) else
    if seqb group "WX" then Ok (Some (Weather_of Wx_WX_MISG WxI_WX)) else
    if seqb group "TS/LTNG" then Ok (Some (Weather_of Wx_TS_LTNG_TEMPO_UNAVBL WxI_TSLTNG)) else
    match md_reportTime md with
    | None => Ok None
    | Some t => Weather_parseWeatherEvent group t
    end
  else Ok None).

(** 5337-5377 *)
Definition WeatherGroup_append (g : WeatherGroup) (group : string) (part : ReportPart)
  (md : ReportMetadata) : res (WeatherGroup * AppendResult) :=
  let invalid := Ok (g, GROUP_INVALIDATED) in
  match wx_inc g with
  | WxI_WX =>
    if negb (seqb group "MISG") then invalid else Ok (Weather_setInc g WxI_NONE, APPENDED)
  | WxI_TSLTNG =>
    if negb (seqb group "TEMPO") then invalid else Ok (Weather_setInc g WxI_TSLTNG_TEMPO, APPENDED)
  | WxI_TSLTNG_TEMPO =>
    if negb (seqb group "UNAVBL") then invalid else Ok (Weather_setInc g WxI_NONE, APPENDED)
  | WxI_NONE =>
    if negb (WxType_beq (wx_t g) Wx_CURRENT) && negb (WxType_beq (wx_t g) Wx_RECENT)
    then Ok (g, NOT_APPENDED) else
    let! wp := Weather_parseWeatherWithoutEvent group part in
    match wp with
    | None => Ok (g, NOT_APPENDED)
    | Some wp =>
      let recent := WpQualifier_beq (Wp_qualifier wp) Q_RECENT in
      if WxType_beq (wx_t g) Wx_CURRENT && recent then Ok (g, NOT_APPENDED) else
      if WxType_beq (wx_t g) Wx_RECENT && negb recent then Ok (g, NOT_APPENDED) else
      let! o := Weather_addWeatherPhenomena g wp in
      match o with
      | Some g' => Ok (g', APPENDED)
      | None => Ok (g, NOT_APPENDED)
      end
    end
  end.

(* ------------------------------------------------------------------ *)
(** ** TemperatureGroup (1432-1463, 5450-5519) *)

Inductive TgType := Tg_TEMPERATURE_AND_DEW_POINT | Tg_T_MISG | Tg_TD_MISG.
Scheme Equality for TgType.
Record TemperatureGroup := mkTempGroup                                    (* 1457-1460 *)
  { tg_tp : TgType; tg_t : Temperature; tg_dp : Temperature; tg_isIncomplete : bool }.
Definition TemperatureGroup_default : TemperatureGroup :=
  mkTempGroup Tg_TEMPERATURE_AND_DEW_POINT Temperature_default Temperature_default false.
Definition Temp_of (t : TgType) (i : bool) : TemperatureGroup :=          (* 1462 *)
  mkTempGroup t Temperature_default Temperature_default i.
(** 1442-1444 *)
Definition TemperatureGroup_relativeHumidity (pow : flt -> flt -> flt) (g : TemperatureGroup)
  : option flt := Temperature_relativeHumidity pow (tg_t g) (tg_dp g).
(** 5450-5462; [!x] on a float is comparison with zero *)
Definition TemperatureGroup_isValid (g : TemperatureGroup) : bool :=
  if tg_isIncomplete g then false else
  match Temperature_temperature (tg_t g), Temperature_temperature (tg_dp g) with
  | Some t, Some dp =>
    if flt_is_zero t && flt_is_zero dp && freezing (tg_t g) && negb (freezing (tg_dp g))
    then false
    else flt_leb dp t
  | _, _ => true
  end.
Definition rgx_temperature : re := Eval vm_compute in rx "(M?\d\d|//)/(M?\d\d|//)?".  (* 5470 *)
Definition rgx_temperature_rmk : re := Eval vm_compute in rx "T([01]\d\d\d)([01]\d\d\d)?". (* 5472 *)
(** 5464-5506 *)
Definition TemperatureGroup_parse (group : string) (part : ReportPart) (md : ReportMetadata)
  : res (option TemperatureGroup) :=
  if is_part part RP_METAR then
    match regex_match rgx_temperature group with
    | None => Ok None
    | Some m =>
      let? t := Temperature_fromString (mstr m 1) in
      if negb (Nat.eqb (mlen m 2) 0) then
        let? dp := Temperature_fromString (mstr m 2) in
        Ok (Some (mkTempGroup Tg_TEMPERATURE_AND_DEW_POINT t dp false))
      else Ok (Some (mkTempGroup Tg_TEMPERATURE_AND_DEW_POINT t Temperature_default false))
    end
  else if is_part part RP_RMK then
    if seqb group "T" then Ok (Some (Temp_of Tg_T_MISG true)) else
    if seqb group "TD" then Ok (Some (Temp_of Tg_TD_MISG true)) else
    match regex_match rgx_temperature_rmk group with
    | None => Ok None
    | Some m =>
      let? t := Temperature_fromRemarkString (mstr m 1) in
      if negb (Nat.eqb (mlen m 2) 0) then
        let? dp := Temperature_fromRemarkString (mstr m 2) in
        Ok (Some (mkTempGroup Tg_TEMPERATURE_AND_DEW_POINT t dp false))
      else Ok (Some (mkTempGroup Tg_TEMPERATURE_AND_DEW_POINT t Temperature_default false))
    end
  else Ok None.
(** 5508-5519 *)
Definition TemperatureGroup_append (g : TemperatureGroup) (group : string) (part : ReportPart)
  (md : ReportMetadata) : res (TemperatureGroup * AppendResult) :=
  if tg_isIncomplete g && (TgType_beq (tg_tp g) Tg_T_MISG || TgType_beq (tg_tp g) Tg_TD_MISG) then
    if negb (seqb group "MISG") then Ok (g, GROUP_INVALIDATED) else
    Ok (mkTempGroup (tg_tp g) (tg_t g) (tg_dp g) false, APPENDED)
  else Ok (g, NOT_APPENDED).

(* ------------------------------------------------------------------ *)
(** ** PressureGroup (1465-1494, 5523-5578) *)

Inductive PgType := Pg_OBSERVED_QNH | Pg_FORECAST_LOWEST_QNH | Pg_OBSERVED_QFE | Pg_OBSERVED_SLP
| Pg_SLPNO | Pg_PRES_MISG.
Scheme Equality for PgType.
Record PressureGroup := mkPressureGroup                                   (* 1489-1491 *)
  { pg_t : PgType; pg_p : Pressure; pg_isIncomplete : bool }.
Definition PressureGroup_isValid (g : PressureGroup) : bool := negb (pg_isIncomplete g). (* 1477 *)
(** 5523-5565 *)
Definition PressureGroup_parse (group : string) (part : ReportPart) (md : ReportMetadata)
  : res (option PressureGroup) :=
  let of (t : PgType) (p : Pressure) : res (option PressureGroup) :=
    Ok (Some (mkPressureGroup t p false)) in
  let qnh := let? p := Pressure_fromString group in of Pg_OBSERVED_QNH p in
  if is_part part RP_METAR then qnh else
  if is_part part RP_TAF then
    let? p := Pressure_fromForecastString group in of Pg_FORECAST_LOWEST_QNH p else
  if is_part part RP_RMK then
    or_else qnh (
    if seqb group "SLPNO" then of Pg_SLPNO Pressure_default else
    if seqb group "PRES" then Ok (Some (mkPressureGroup Pg_PRES_MISG Pressure_default true)) else
    or_else (let? p := Pressure_fromSlpString group in of Pg_OBSERVED_SLP p)
            (let? p := Pressure_fromQfeString group in of Pg_OBSERVED_QFE p))
  else Ok None.
(** 5567-5578 *)
Definition PressureGroup_append (g : PressureGroup) (group : string) (part : ReportPart)
  (md : ReportMetadata) : res (PressureGroup * AppendResult) :=
  if pg_isIncomplete g && PgType_beq (pg_t g) Pg_PRES_MISG then
    if negb (seqb group "MISG") then Ok (g, GROUP_INVALIDATED) else
    Ok (mkPressureGroup (pg_t g) (pg_p g) false, APPENDED)
  else Ok (g, NOT_APPENDED).

(* ------------------------------------------------------------------ *)
(** ** RunwayStateGroup (1496-1569, 5582-5686) *)

Inductive RsType := Rs_RUNWAY_STATE | Rs_RUNWAY_CLRD | Rs_RUNWAY_SNOCLO | Rs_RUNWAY_NOT_OPERATIONAL
| Rs_AERODROME_SNOCLO.
Scheme Equality for RsType.
Inductive RsDeposits := De_CLEAR_AND_DRY | De_DAMP | De_WET_AND_WATER_PATCHES
| De_RIME_AND_FROST_COVERED | De_DRY_SNOW | De_WET_SNOW | De_SLUSH | De_ICE
| De_COMPACTED_OR_ROLLED_SNOW | De_FROZEN_RUTS_OR_RIDGES | De_NOT_REPORTED.
Scheme Equality for RsDeposits.
Inductive RsExtent := Ex_NONE | Ex_LESS_THAN_10_PERCENT | Ex_FROM_11_TO_25_PERCENT | Ex_RESERVED_3
| Ex_RESERVED_4 | Ex_FROM_26_TO_50_PERCENT | Ex_RESERVED_6 | Ex_RESERVED_7 | Ex_RESERVED_8
| Ex_MORE_THAN_51_PERCENT | Ex_NOT_REPORTED.
Scheme Equality for RsExtent.
Record RunwayStateGroup := mkRunwayState                                  (* 1557-1562 *)
  { rs_rw : Runway; rs_tp : RsType; rs_dp : RsDeposits; rs_ext : RsExtent;
    rs_dDepth : Precipitation; rs_sf : SurfaceFriction }.
Definition RunwayState_of (t : RsType) (r : Runway) (s : SurfaceFriction) : RunwayStateGroup := (* 1564 *)
  mkRunwayState r t De_NOT_REPORTED Ex_NOT_REPORTED Precipitation_default s.
(** 1538-1545 *)
Definition RunwayStateGroup_isValid (g : RunwayStateGroup) : bool :=
  Runway_isValid (rs_rw g) &&
  match rs_ext g with
  | Ex_RESERVED_3 | Ex_RESERVED_4 | Ex_RESERVED_6 | Ex_RESERVED_7 | Ex_RESERVED_8 => false
  | _ => true
  end.
(** 5646-5665 *)
Definition RunwayState_depositsFromString (s : string) : res (option RsDeposits) :=
  if negb (Nat.eqb (slen s) 1) then Ok None else
  let! c := sget s 0 in
  Ok (lookup (String c "") [("0", De_CLEAR_AND_DRY); ("1", De_DAMP); ("2", De_WET_AND_WATER_PATCHES);
    ("3", De_RIME_AND_FROST_COVERED); ("4", De_DRY_SNOW); ("5", De_WET_SNOW); ("6", De_SLUSH);
    ("7", De_ICE); ("8", De_COMPACTED_OR_ROLLED_SNOW); ("9", De_FROZEN_RUTS_OR_RIDGES);
    ("/", De_NOT_REPORTED)]).
(** 5667-5686 *)
Definition RunwayState_extentFromString (s : string) : res (option RsExtent) :=
  if negb (Nat.eqb (slen s) 1) then Ok None else
  let! c := sget s 0 in
  Ok (lookup (String c "") [("0", Ex_NONE); ("1", Ex_LESS_THAN_10_PERCENT);
    ("2", Ex_FROM_11_TO_25_PERCENT); ("3", Ex_RESERVED_3); ("4", Ex_RESERVED_4);
    ("5", Ex_FROM_26_TO_50_PERCENT); ("6", Ex_RESERVED_6); ("7", Ex_RESERVED_7);
    ("8", Ex_RESERVED_8); ("9", Ex_MORE_THAN_51_PERCENT); ("/", Ex_NOT_REPORTED)]).
Definition rgx_runwaystate : re := Eval vm_compute in                     (* 5592-5595 *)
  rx "(R\d\d[RCL]?)/(?:(SNOCLO)|((\d\d)?D)|(?:([0-9/])([0-9/])(\d\d|//)|(CLRD))(\d\d|//))|".
(** 5582-5636 *)
Definition RunwayStateGroup_parse (group : string) (part : ReportPart) (md : ReportMetadata)
  : res (option RunwayStateGroup) :=
  if negb (is_part part RP_METAR) then Ok None else
  if seqb group "SNOCLO" || seqb group "R/SNOCLO" then
    Ok (Some (RunwayState_of Rs_AERODROME_SNOCLO Runway_makeAllRunways SurfaceFriction_default)) else
  match regex_match rgx_runwaystate group with
  | None => Ok None
  | Some m =>
    let? runway := Runway_fromString (mstr m 1) false in
    if negb (Nat.eqb (mlen m 2) 0) then
      Ok (Some (RunwayState_of Rs_RUNWAY_SNOCLO runway SurfaceFriction_default)) else
    if negb (Nat.eqb (mlen m 3) 0) then
      if negb (Nat.eqb (mlen m 4) 0) then
        let? f := SurfaceFriction_fromString (mstr m 4) in
        Ok (Some (RunwayState_of Rs_RUNWAY_CLRD runway f))
      else Ok (Some (RunwayState_of Rs_RUNWAY_CLRD runway SurfaceFriction_default))
    else
    let? friction := SurfaceFriction_fromString (mstr m 9) in
    if negb (Nat.eqb (mlen m 8) 0) then
      Ok (Some (RunwayState_of Rs_RUNWAY_CLRD runway friction)) else
    let? deposits := RunwayState_depositsFromString (mstr m 5) in
    let? extent := RunwayState_extentFromString (mstr m 6) in
    let? depth := Precipitation_fromRunwayDeposits (mstr m 7) in
    Ok (Some (mkRunwayState runway
      (if seqb (mstr m 7) "99" then Rs_RUNWAY_NOT_OPERATIONAL else Rs_RUNWAY_STATE)
      deposits extent depth friction))
  end.
(** 5638-5644 *)
Definition RunwayStateGroup_append (g : RunwayStateGroup) (group : string) (part : ReportPart)
  (md : ReportMetadata) : res (RunwayStateGroup * AppendResult) := Ok (g, NOT_APPENDED).

(* ------------------------------------------------------------------ *)
(** ** SeaSurfaceGroup (1571-1589, 5690-5717) *)

Record SeaSurfaceGroup := mkSeaSurface { ss_t : Temperature; ss_wh : WaveHeight }. (* 1587-1588 *)
Definition SeaSurfaceGroup_isValid (g : SeaSurfaceGroup) : bool := true.  (* 1575 *)
Definition rgx_seasurface : re :=
  Eval vm_compute in rx "W(\d\d|//)/([HS](?:\d\d?\d?|///|/))".            (* 5697 *)
(** 5690-5709 *)
Definition SeaSurfaceGroup_parse (group : string) (part : ReportPart) (md : ReportMetadata)
  : res (option SeaSurfaceGroup) :=
  if negb (is_part part RP_METAR) then Ok None else
  match regex_match rgx_seasurface group with
  | None => Ok None
  | Some m =>
    let? temp := Temperature_fromString (mstr m 1) in
    let? waveHeight := WaveHeight_fromString (mstr m 2) in
    Ok (Some (mkSeaSurface temp waveHeight))
  end.
(** 5711-5717 *)
Definition SeaSurfaceGroup_append (g : SeaSurfaceGroup) (group : string) (part : ReportPart)
  (md : ReportMetadata) : res (SeaSurfaceGroup * AppendResult) := Ok (g, NOT_APPENDED).

(* ------------------------------------------------------------------ *)
(** ** MinMaxTemperatureGroup (1591-1630, 5721-5873) *)

Inductive MmType := Mm_OBSERVED_6_HOURLY | Mm_OBSERVED_24_HOURLY | Mm_FORECAST.
Scheme Equality for MmType.
Record MinMaxTemperatureGroup := mkMinMax                                 (* 1614-1619 *)
  { mm_t : MmType; mm_minTemp : Temperature; mm_maxTemp : Temperature;
    mm_minTime : option MetafTime; mm_maxTime : option MetafTime; mm_isIncomplete : bool }.
Definition rgx_6hourly : re := Eval vm_compute in rx "([12])([01]\d\d\d|////)".     (* 5751 *)
(** 5747-5764 *)
Definition MinMax_from6hourly (group : string) : res (option MinMaxTemperatureGroup) :=
  match regex_match rgx_6hourly group with
  | None => Ok None
  | Some m =>
    let result := mkMinMax Mm_OBSERVED_6_HOURLY Temperature_default Temperature_default None None
                    false in
    if seqb (mstr m 2) "////" then Ok (Some result) else
    let? temp := Temperature_fromRemarkString (mstr m 2) in
    Ok (Some (mkMinMax Mm_OBSERVED_6_HOURLY
      (if seqb (mstr m 1) "2" then temp else Temperature_default)
      (if seqb (mstr m 1) "1" then temp else Temperature_default) None None false))
  end.
Definition rgx_24hourly : re := Eval vm_compute in rx "4([01]\d\d\d)([01]\d\d\d)".   (* 5770 *)
(** 5766-5783 *)
Definition MinMax_from24hourly (group : string) : res (option MinMaxTemperatureGroup) :=
  match regex_match rgx_24hourly group with
  | None => Ok None
  | Some m =>
    let? max := Temperature_fromRemarkString (mstr m 1) in
    let? min := Temperature_fromRemarkString (mstr m 2) in
    Ok (Some (mkMinMax Mm_OBSERVED_24_HOURLY min max None None false))
  end.
Definition rgx_forecastminmax : re :=
  Eval vm_compute in rx "T([XN])?(M?\d\d)/(\d\d\d\d)Z".                    (* 5789 *)
(** 5785-5815 *)
Definition MinMax_fromForecast (group : string) : res (option MinMaxTemperatureGroup) :=
  match regex_match rgx_forecastminmax group with
  | None => Ok None
  | Some m =>
    let? temp := Temperature_fromString (mstr m 2) in
    let? time := MetafTime_fromStringDDHH (mstr m 3) in
    let both := Nat.eqb (mlen m 1) 0 in
    let isMin := seqb (mstr m 1) "N" || both in
    let isMax := seqb (mstr m 1) "X" || both in
    Ok (Some (mkMinMax Mm_FORECAST
      (if isMin then temp else Temperature_default) (if isMax then temp else Temperature_default)
      (if isMin then Some time else None) (if isMax then Some time else None) both))
  end.
(** 5721-5733 *)
Definition MinMaxTemperatureGroup_parse (group : string) (part : ReportPart) (md : ReportMetadata)
  : res (option MinMaxTemperatureGroup) :=
  if is_part part RP_TAF then MinMax_fromForecast group else
  if is_part part RP_RMK then or_else (MinMax_from6hourly group) (MinMax_from24hourly group) else
  Ok None.
(** 5817-5827 *)
Definition MinMax_append6hourly (g : MinMaxTemperatureGroup) (group : string)
  : res (MinMaxTemperatureGroup * AppendResult) :=
  let error := Ok (g, NOT_APPENDED) in
  let minR := Temperature_isReported (mm_minTemp g) in
  let maxR := Temperature_isReported (mm_maxTemp g) in
  if minR && maxR then error else
  let! nextGroup := MinMax_from6hourly group in
  match nextGroup with
  | None => error
  | Some n =>
    let nMinR := Temperature_isReported (mm_minTemp n) in
    let nMaxR := Temperature_isReported (mm_maxTemp n) in
    if minR && nMinR then error else
    if maxR && nMaxR then error else
    Ok (mkMinMax (mm_t g)
          (if negb minR && nMinR then mm_minTemp n else mm_minTemp g)
          (if negb maxR && nMaxR then mm_maxTemp n else mm_maxTemp g)
          (mm_minTime g) (mm_maxTime g) (mm_isIncomplete g), APPENDED)
  end.
(** 5829-5862; the group is returned as modified also where the error is returned after it was
    modified (5849) *)
Definition MinMax_appendForecast (g : MinMaxTemperatureGroup) (group : string)
  : res (MinMaxTemperatureGroup * AppendResult) :=
  let error := Ok (g, NOT_APPENDED) in
  let minR := Temperature_isReported (mm_minTemp g) in
  let maxR := Temperature_isReported (mm_maxTemp g) in
  if minR && maxR && negb (mm_isIncomplete g) then error else
  let! nextGroup := MinMax_fromForecast group in
  match nextGroup with
  | None => error
  | Some n =>
    if negb (Bool.eqb (mm_isIncomplete g) (mm_isIncomplete n)) then error else
    if negb (mm_isIncomplete g) then
      let nMinR := Temperature_isReported (mm_minTemp n) in
      let nMaxR := Temperature_isReported (mm_maxTemp n) in
      if minR && nMinR then error else
      if maxR && nMaxR then error else
      let takeMin := negb minR && nMinR in
      let takeMax := negb maxR && nMaxR in
      let g1 := mkMinMax (mm_t g)
        (if takeMin then mm_minTemp n else mm_minTemp g)
        (if takeMax then mm_maxTemp n else mm_maxTemp g)
        (if takeMin then mm_minTime n else mm_minTime g)
        (if takeMax then mm_maxTime n else mm_maxTime g) (mm_isIncomplete g) in
      if negb (Temperature_isReported (mm_minTemp g1)) || negb (Temperature_isReported (mm_maxTemp g1))
      then Ok (g1, NOT_APPENDED) else Ok (g1, APPENDED)
    else
      let minTemp := mm_minTemp g in let minTime := mm_minTime g in
      let maxTemp := mm_maxTemp n in let maxTime := mm_maxTime n in
      let! swap :=
        if negb (freezing minTemp) && freezing maxTemp then Ok true else
        let! a := deref (Temperature_temperature minTemp) in
        let! b := deref (Temperature_temperature maxTemp) in
        Ok (flt_ltb b a) in
      Ok ((if swap then mkMinMax (mm_t g) maxTemp minTemp maxTime minTime false
           else mkMinMax (mm_t g) minTemp maxTemp minTime maxTime false), APPENDED)
  end.
(** 5735-5745 *)
Definition MinMaxTemperatureGroup_append (g : MinMaxTemperatureGroup) (group : string)
  (part : ReportPart) (md : ReportMetadata) : res (MinMaxTemperatureGroup * AppendResult) :=
  match mm_t g with
  | Mm_OBSERVED_6_HOURLY => MinMax_append6hourly g group
  | Mm_OBSERVED_24_HOURLY => Ok (g, NOT_APPENDED)
  | Mm_FORECAST => MinMax_appendForecast g group
  end.
(** 5864-5873 *)
Definition MinMaxTemperatureGroup_isValid (g : MinMaxTemperatureGroup) : bool :=
  if mm_isIncomplete g then false else
  if Temperature_isReported (mm_minTemp g) && Temperature_isReported (mm_maxTemp g)
     && negb (freezing (mm_minTemp g)) && freezing (mm_maxTemp g) then false else
  if negb (MetafTime_isValid (opt_default (mm_minTime g) MetafTime_default)) then false else
  if negb (MetafTime_isValid (opt_default (mm_maxTime g) MetafTime_default)) then false else
  flt_ltb (opt_default (Temperature_temperature (mm_minTemp g)) (f32_of_Z (-100)))
          (opt_default (Temperature_temperature (mm_maxTemp g)) (f32_of_Z 100)).

(* ------------------------------------------------------------------ *)
(** ** PrecipitationGroup (1632-1675, 5877-6007) *)

Inductive PcType := Pc_TOTAL_PRECIPITATION_HOURLY | Pc_SNOW_DEPTH_ON_GROUND
| Pc_FROZEN_PRECIP_3_OR_6_HOURLY | Pc_FROZEN_PRECIP_3_HOURLY | Pc_FROZEN_PRECIP_6_HOURLY
| Pc_FROZEN_PRECIP_24_HOURLY | Pc_SNOW_6_HOURLY | Pc_WATER_EQUIV_OF_SNOW_ON_GROUND
| Pc_ICE_ACCRETION_FOR_LAST_HOUR | Pc_ICE_ACCRETION_FOR_LAST_3_HOURS
| Pc_ICE_ACCRETION_FOR_LAST_6_HOURS | Pc_SNOW_INCREASING_RAPIDLY
| Pc_PRECIPITATION_ACCUMULATION_SINCE_LAST_REPORT | Pc_RAINFALL_9AM_10MIN | Pc_PNO | Pc_FZRANO
| Pc_ICG_MISG | Pc_PCPN_MISG.
Scheme Equality for PcType.
Record PrecipitationGroup := mkPrecipGroup                                (* 1667-1670 *)
  { pc_type : PcType; pc_amount : Precipitation; pc_change : Precipitation; pc_isIncomplete : bool }.
Definition Precip_of (t : PcType) (i : bool) : PrecipitationGroup :=      (* 1672 *)
  mkPrecipGroup t Precipitation_default Precipitation_default i.
Definition PrecipitationGroup_isValid (g : PrecipitationGroup) : bool := negb (pc_isIncomplete g). (* 1657 *)
(** 5977-5985 *)
Definition Precip_unitFromType (t : PcType) : PrecipUnit :=
  match t with Pc_PRECIPITATION_ACCUMULATION_SINCE_LAST_REPORT => MM | _ => INCHES end.
(** 5987-6007 *)
Definition Precip_factorFromType (t : PcType) : flt :=
  match t with
  | Pc_WATER_EQUIV_OF_SNOW_ON_GROUND | Pc_SNOW_6_HOURLY
  | Pc_PRECIPITATION_ACCUMULATION_SINCE_LAST_REPORT => flit 1 10
  | Pc_TOTAL_PRECIPITATION_HOURLY | Pc_FROZEN_PRECIP_3_OR_6_HOURLY | Pc_FROZEN_PRECIP_3_HOURLY
  | Pc_FROZEN_PRECIP_6_HOURLY | Pc_FROZEN_PRECIP_24_HOURLY | Pc_ICE_ACCRETION_FOR_LAST_HOUR
  | Pc_ICE_ACCRETION_FOR_LAST_3_HOURS | Pc_ICE_ACCRETION_FOR_LAST_6_HOURS => flit 1 100
  | _ => f32_of_Z 1
  end.
Definition rgx_precip : re := Eval vm_compute in                          (* 5883 *)
  rx "([P67])(\d\d\d\d|////)|(4/|93[13]|I[136]|PP)(\d\d\d|///)".
Definition rgx_rainfall : re := Eval vm_compute in                        (* 5888 *)
  rx "RF(\d\d\.\d|//\./)/(\d\d\d\.\d|///\./)".
(** 5922-5944 *)
Definition Precip_typeFromString (typeStr : string) (reportTime : option MetafTime) : PcType :=
  let is3hourly := match reportTime with
                   | Some t => MetafTime_is3hourlyReportTime t | None => false end in
  let is6hourly := match reportTime with
                   | Some t => MetafTime_is6hourlyReportTime t | None => false end in
  if seqb typeStr "P" then Pc_TOTAL_PRECIPITATION_HOURLY else
  if seqb typeStr "4/" then Pc_SNOW_DEPTH_ON_GROUND else
  if seqb typeStr "6" then
    if is6hourly then Pc_FROZEN_PRECIP_6_HOURLY else
    if is3hourly then Pc_FROZEN_PRECIP_3_HOURLY else Pc_FROZEN_PRECIP_3_OR_6_HOURLY else
  if seqb typeStr "7" then Pc_FROZEN_PRECIP_24_HOURLY else
  if seqb typeStr "931" then Pc_SNOW_6_HOURLY else
  if seqb typeStr "933" then Pc_WATER_EQUIV_OF_SNOW_ON_GROUND else
  if seqb typeStr "I1" then Pc_ICE_ACCRETION_FOR_LAST_HOUR else
  if seqb typeStr "I3" then Pc_ICE_ACCRETION_FOR_LAST_3_HOURS else
  if seqb typeStr "I6" then Pc_ICE_ACCRETION_FOR_LAST_6_HOURS else
  if seqb typeStr "PP" then Pc_PRECIPITATION_ACCUMULATION_SINCE_LAST_REPORT else
  Pc_TOTAL_PRECIPITATION_HOURLY.
(** 5877-5954 *)
Definition PrecipitationGroup_parse (group : string) (part : ReportPart) (md : ReportMetadata)
  : res (option PrecipitationGroup) :=
  if is_part part RP_METAR then
    match regex_match rgx_rainfall group with
    | None => Ok None
    | Some m =>
      let? last10min := Precipitation_fromRainfallString (mstr m 1) in
      let? since9AM := Precipitation_fromRainfallString (mstr m 2) in
      Ok (Some (mkPrecipGroup Pc_RAINFALL_9AM_10MIN since9AM last10min false))
    end else
  if negb (is_part part RP_RMK) then Ok None else
  if seqb group "PNO" then Ok (Some (Precip_of Pc_PNO false)) else
  if seqb group "FZRANO" then Ok (Some (Precip_of Pc_FZRANO false)) else
  if seqb group "ICG" then Ok (Some (Precip_of Pc_ICG_MISG true)) else
  if seqb group "PCPN" then Ok (Some (Precip_of Pc_PCPN_MISG true)) else
  if seqb group "SNINCR" then Ok (Some (Precip_of Pc_SNOW_INCREASING_RAPIDLY false)) else
  match regex_match rgx_precip group with
  | None => Ok None
  | Some m =>
    let typeStr := mstr m 1 ++ mstr m 3 in
    let valueStr := mstr m 2 ++ mstr m 4 in
    let t := Precip_typeFromString typeStr (md_reportTime md) in
    let? amount := Precipitation_fromRemarkString valueStr (Precip_factorFromType t)
                     (Precip_unitFromType t) true in
    Ok (Some (mkPrecipGroup t amount Precipitation_default false))
  end.
(** 5956-5975 *)
Definition PrecipitationGroup_append (g : PrecipitationGroup) (group : string) (part : ReportPart)
  (md : ReportMetadata) : res (PrecipitationGroup * AppendResult) :=
  if PcType_beq (pc_type g) Pc_PCPN_MISG || PcType_beq (pc_type g) Pc_ICG_MISG then
    if negb (pc_isIncomplete g) then Ok (g, NOT_APPENDED) else
    if negb (seqb group "MISG") then Ok (g, GROUP_INVALIDATED) else
    Ok (mkPrecipGroup (pc_type g) (pc_amount g) (pc_change g) false, APPENDED)
  else
  if negb (PcType_beq (pc_type g) Pc_SNOW_INCREASING_RAPIDLY) then Ok (g, NOT_APPENDED) else
  if Precipitation_isReported (pc_amount g) || Precipitation_isReported (pc_change g)
  then Ok (g, NOT_APPENDED) else
  let! precip := Precipitation_fromSnincrString group in
  match precip with
  | None => Ok (g, NOT_APPENDED)
  | Some p => Ok (mkPrecipGroup (pc_type g) (snd p) (fst p) (pc_isIncomplete g), APPENDED)
  end.
