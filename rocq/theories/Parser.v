(** The Group variant, GroupParser, the tokenizer, the report syntax state machine, Parser::parse
    and Visitor (metaf.hpp 62-85, 2063-2495, 6727-7275). Definitions only. *)

From Verif Require Import Prim Regex Float Values Weather Groups1 Groups2 Groups3 Groups4.
Local Open Scope string_scope.

(* ------------------------------------------------------------------ *)
(** ** Group (62-85) *)

Inductive Group :=
| GKeyword (g : KeywordGroup) | GLocation (g : LocationGroup) | GReportTime (g : ReportTimeGroup)
| GTrend (g : TrendGroup) | GWind (g : WindGroup) | GVisibility (g : VisibilityGroup)
| GCloud (g : CloudGroup) | GWeather (g : WeatherGroup) | GTemperature (g : TemperatureGroup)
| GPressure (g : PressureGroup) | GRunwayState (g : RunwayStateGroup)
| GSeaSurface (g : SeaSurfaceGroup) | GMinMaxTemperature (g : MinMaxTemperatureGroup)
| GPrecipitation (g : PrecipitationGroup) | GLayerForecast (g : LayerForecastGroup)
| GPressureTendency (g : PressureTendencyGroup) | GCloudTypes (g : CloudTypesGroup)
| GLowMidHighCloud (g : LowMidHighCloudGroup) | GLightning (g : LightningGroup)
| GVicinity (g : VicinityGroup) | GMisc (g : MiscGroup) | GUnknown (g : UnknownGroup).

(** std::variant::index *)
Definition Group_index (g : Group) : nat :=
  match g with
  | GKeyword _ => 0 | GLocation _ => 1 | GReportTime _ => 2 | GTrend _ => 3 | GWind _ => 4
  | GVisibility _ => 5 | GCloud _ => 6 | GWeather _ => 7 | GTemperature _ => 8 | GPressure _ => 9
  | GRunwayState _ => 10 | GSeaSurface _ => 11 | GMinMaxTemperature _ => 12
  | GPrecipitation _ => 13 | GLayerForecast _ => 14 | GPressureTendency _ => 15
  | GCloudTypes _ => 16 | GLowMidHighCloud _ => 17 | GLightning _ => 18 | GVicinity _ => 19
  | GMisc _ => 20 | GUnknown _ => 21
  end.
(** 915: the fallback group is UnknownGroup; std::holds_alternative<FallbackGroup> *)
Definition is_fallback (g : Group) : bool := match g with GUnknown _ => true | _ => false end.

(* ------------------------------------------------------------------ *)
(** ** GroupParser (2095-2148) *)

(** One step of parseAlternative / reparseAlternative: [Alternative::parse], wrapped in the variant *)
Definition alternative {A : Type} (mk : A -> Group)
  (p : string -> ReportPart -> ReportMetadata -> res (option A))
  (s : string) (part : ReportPart) (md : ReportMetadata) : res (option Group) :=
  let? g := p s part md in Ok (Some (mk g)).
(** The alternatives of the variant in order, without the fallback group (2118, 2136) *)
Definition alternatives : list (string -> ReportPart -> ReportMetadata -> res (option Group)) :=
  [ alternative GKeyword KeywordGroup_parse; alternative GLocation LocationGroup_parse;
    alternative GReportTime ReportTimeGroup_parse; alternative GTrend TrendGroup_parse;
    alternative GWind WindGroup_parse; alternative GVisibility VisibilityGroup_parse;
    alternative GCloud CloudGroup_parse; alternative GWeather WeatherGroup_parse;
    alternative GTemperature TemperatureGroup_parse; alternative GPressure PressureGroup_parse;
    alternative GRunwayState RunwayStateGroup_parse; alternative GSeaSurface SeaSurfaceGroup_parse;
    alternative GMinMaxTemperature MinMaxTemperatureGroup_parse;
    alternative GPrecipitation PrecipitationGroup_parse;
    alternative GLayerForecast LayerForecastGroup_parse;
    alternative GPressureTendency PressureTendencyGroup_parse;
    alternative GCloudTypes CloudTypesGroup_parse;
    alternative GLowMidHighCloud LowMidHighCloudGroup_parse;
    alternative GLightning LightningGroup_parse; alternative GVicinity VicinityGroup_parse;
    alternative GMisc MiscGroup_parse ].
(** 2112-2127 *)
Fixpoint parseAlternatives
  (l : list (string -> ReportPart -> ReportMetadata -> res (option Group)))
  (s : string) (part : ReportPart) (md : ReportMetadata) : res Group :=
  match l with
  | [] => Ok (GUnknown mkUnknown)
  | p :: l' =>
    let! parsed := p s part md in
    match parsed with
    | Some g => Ok g
    | None => parseAlternatives l' s part md
    end
  end.
(** 2129-2147; [i] is the index of the first alternative in [l] *)
Fixpoint reparseAlternatives
  (l : list (string -> ReportPart -> ReportMetadata -> res (option Group))) (i : nat)
  (s : string) (part : ReportPart) (md : ReportMetadata) (ignoreIndex : nat) : res Group :=
  match l with
  | [] => Ok (GUnknown mkUnknown)
  | p :: l' =>
    if Nat.eqb i ignoreIndex then reparseAlternatives l' (S i) s part md ignoreIndex else
    let! parsed := p s part md in
    match parsed with
    | Some g => Ok g
    | None => reparseAlternatives l' (S i) s part md ignoreIndex
    end
  end.
(** 2097-2102 *)
Definition GroupParser_parse (s : string) (part : ReportPart) (md : ReportMetadata) : res Group :=
  parseAlternatives alternatives s part md.
(** 2104-2110 *)
Definition GroupParser_reparse (s : string) (part : ReportPart) (md : ReportMetadata)
  (previous : Group) : res Group :=
  reparseAlternatives alternatives 0 s part md (Group_index previous).

(** std::visit of [gr.append(...)], 6824-6827 *)
Definition wrap {A : Type} (mk : A -> Group) (r : res (A * AppendResult))
  : res (Group * AppendResult) :=
  let! ' (g, a) := r in Ok (mk g, a).
Definition Group_append (g : Group) (s : string) (part : ReportPart) (md : ReportMetadata)
  : res (Group * AppendResult) :=
  match g with
  | GKeyword g => wrap GKeyword (KeywordGroup_append g s part md)
  | GLocation g => wrap GLocation (LocationGroup_append g s part md)
  | GReportTime g => wrap GReportTime (ReportTimeGroup_append g s part md)
  | GTrend g => wrap GTrend (TrendGroup_append g s part md)
  | GWind g => wrap GWind (WindGroup_append g s part md)
  | GVisibility g => wrap GVisibility (VisibilityGroup_append g s part md)
  | GCloud g => wrap GCloud (CloudGroup_append g s part md)
  | GWeather g => wrap GWeather (WeatherGroup_append g s part md)
  | GTemperature g => wrap GTemperature (TemperatureGroup_append g s part md)
  | GPressure g => wrap GPressure (PressureGroup_append g s part md)
  | GRunwayState g => wrap GRunwayState (RunwayStateGroup_append g s part md)
  | GSeaSurface g => wrap GSeaSurface (SeaSurfaceGroup_append g s part md)
  | GMinMaxTemperature g => wrap GMinMaxTemperature (MinMaxTemperatureGroup_append g s part md)
  | GPrecipitation g => wrap GPrecipitation (PrecipitationGroup_append g s part md)
  | GLayerForecast g => wrap GLayerForecast (LayerForecastGroup_append g s part md)
  | GPressureTendency g => wrap GPressureTendency (PressureTendencyGroup_append g s part md)
  | GCloudTypes g => wrap GCloudTypes (CloudTypesGroup_append g s part md)
  | GLowMidHighCloud g => wrap GLowMidHighCloud (LowMidHighCloudGroup_append g s part md)
  | GLightning g => wrap GLightning (LightningGroup_append g s part md)
  | GVicinity g => wrap GVicinity (VicinityGroup_append g s part md)
  | GMisc g => wrap GMisc (MiscGroup_append g s part md)
  | GUnknown g => wrap GUnknown (UnknownGroup_append g s part md)
  end.
(** [gr.isValid()] on whichever alternative is held *)
Definition Group_isValid (g : Group) : res bool :=
  match g with
  | GKeyword g => Ok (KeywordGroup_isValid g)
  | GLocation g => Ok (LocationGroup_isValid g)
  | GReportTime g => Ok (ReportTimeGroup_isValid g)
  | GTrend g => Ok (TrendGroup_isValid g)
  | GWind g => Ok (WindGroup_isValid g)
  | GVisibility g => Ok (VisibilityGroup_isValid g)
  | GCloud g => Ok (CloudGroup_isValid g)
  | GWeather g => WeatherGroup_isValid g
  | GTemperature g => Ok (TemperatureGroup_isValid g)
  | GPressure g => Ok (PressureGroup_isValid g)
  | GRunwayState g => Ok (RunwayStateGroup_isValid g)
  | GSeaSurface g => Ok (SeaSurfaceGroup_isValid g)
  | GMinMaxTemperature g => Ok (MinMaxTemperatureGroup_isValid g)
  | GPrecipitation g => Ok (PrecipitationGroup_isValid g)
  | GLayerForecast g => Ok (LayerForecastGroup_isValid g)
  | GPressureTendency g => Ok (PressureTendencyGroup_isValid g)
  | GCloudTypes g => Ok (CloudTypesGroup_isValid g)
  | GLowMidHighCloud g => Ok (LowMidHighCloudGroup_isValid g)
  | GLightning g => Ok (LightningGroup_isValid g)
  | GVicinity g => Ok (VicinityGroup_isValid g)
  | GMisc g => Ok (MiscGroup_isValid g)
  | GUnknown g => Ok (UnknownGroup_isValid g)
  end.

(* ------------------------------------------------------------------ *)
(** ** Syntax groups (2074-2088, 6727-6752) *)

Inductive SyntaxGroup := SG_OTHER | SG_METAR | SG_SPECI | SG_TAF | SG_COR | SG_AMD | SG_LOCATION
| SG_REPORT_TIME | SG_TIME_SPAN | SG_CNL | SG_NIL | SG_RMK | SG_MAINTENANCE_INDICATOR.
Scheme Equality for SyntaxGroup.
(** 6727-6752 *)
Definition getSyntaxGroup (g : Group) : SyntaxGroup :=
  match g with
  | GKeyword k =>
    match kw_t k with
    | Kw_METAR => SG_METAR | Kw_SPECI => SG_SPECI | Kw_TAF => SG_TAF | Kw_COR => SG_COR
    | Kw_AMD => SG_AMD | Kw_NIL => SG_NIL | Kw_CNL => SG_CNL | Kw_RMK => SG_RMK
    | Kw_MAINTENANCE_INDICATOR => SG_MAINTENANCE_INDICATOR
    | _ => SG_OTHER
    end
  | GLocation _ => SG_LOCATION
  | GReportTime _ => SG_REPORT_TIME
  | GTrend t => if Trend_isTimeSpanGroup t then SG_TIME_SPAN else SG_OTHER
  | _ => SG_OTHER
  end.

(* ------------------------------------------------------------------ *)
(** ** Parser::ReportInput (2173-2185, 6878-6906) *)

(** [c <= ' '] for a plain char, which is signed on some platforms and unsigned on others *)
Definition le_space (char_signed : bool) (c : ascii) : bool :=
  N.leb (code c) 32 || (char_signed && N.leb 128 (code c)).
(** 2182-2184; the report itself is a parameter of the functions below *)
Record ReportInput := mkInput { in_finished : bool; in_pos : nat }.
(** 6882-6888: skip delimiters; [None] when the end is reached *)
Fixpoint skip_loop (sgn : bool) (report : string) (fuel pos : nat) : res (option nat) :=
  match fuel with
  | O => Bad Fuel
  | S fuel' =>
    let! c := sget report pos in
    if le_space sgn c then
      if Nat.leb (slen report) pos then Ok None else skip_loop sgn report fuel' (pos + 1)
    else Ok (Some pos)
  end.
(** 6890-6902: (groupLen, finished) *)
Fixpoint group_loop (sgn : bool) (report : string) (fuel pos groupLen : nat) : res (nat * bool) :=
  match fuel with
  | O => Bad Fuel
  | S fuel' =>
    let! c := sget report (pos + groupLen) in
    if negb (le_space sgn c) then
      if Nat.leb (slen report) pos || Ascii.eqb c "="%char then Ok (groupLen, true) else
      if negb (Nat.eqb groupLen 0) && Ascii.eqb c "+"%char then Ok (groupLen + 1, false) else
      group_loop sgn report fuel' pos (groupLen + 1)
    else Ok (groupLen, false)
  end.
(** 6878-6906; the loops are given one more iteration than the report has characters *)
Definition getNextGroup (sgn : bool) (report : string) (i : ReportInput)
  : res (string * ReportInput) :=
  if in_finished i then Ok ("", i) else
  let! p := skip_loop sgn report (S (slen report)) (in_pos i) in
  match p with
  | None => Ok ("", mkInput true (slen report))
  | Some pos =>
    let! ' (groupLen, fin) := group_loop sgn report (S (slen report)) pos 0 in
    let! s := substr report pos groupLen in
    Ok (s, mkInput fin (pos + groupLen))
  end.

(* ------------------------------------------------------------------ *)
(** ** Parser::Status (2188-2238, 6909-7198) *)

Inductive State := St_REPORT_TYPE_OR_LOCATION | St_CORRECTION | St_LOCATION | St_REPORT_TIME
| St_TIME_SPAN | St_REPORT_BODY_BEGIN_METAR | St_REPORT_BODY_BEGIN_METAR_REPEAT_PARSE
| St_REPORT_BODY_METAR | St_REPORT_BODY_BEGIN_TAF | St_REPORT_BODY_TAF | St_REMARK_METAR
| St_REMARK_TAF | St_NIL | St_CNL | St_ERROR.
Scheme Equality for State.
Record Status := mkStatus                                                 (* 2235-2237 *)
  { st_state : State; st_type : ReportType; st_error : ReportError }.
Definition Status_init : Status :=                                        (* 2190-2193 *)
  mkStatus St_REPORT_TYPE_OR_LOCATION RT_UNKNOWN RE_NONE.
Definition setState (s : Status) (x : State) : Status := mkStatus x (st_type s) (st_error s). (* 2224 *)
Definition setReportType (s : Status) (t : ReportType) : Status :=        (* 2225 *)
  mkStatus (st_state s) t (st_error s).
Definition setError (s : Status) (e : ReportError) : Status :=            (* 2203 *)
  mkStatus St_ERROR (st_type s) e.
Definition isError (s : Status) : bool := negb (ReportError_beq (st_error s) RE_NONE). (* 2196 *)
Definition isReparseRequired (s : Status) : bool :=                       (* 2200-2202 *)
  State_beq (st_state s) St_REPORT_BODY_BEGIN_METAR_REPEAT_PARSE.
(** 6909-6936 *)
Definition getReportPart (s : Status) : ReportPart :=
  match st_state s with
  | St_REPORT_TYPE_OR_LOCATION | St_CORRECTION | St_LOCATION | St_REPORT_TIME | St_TIME_SPAN =>
    RP_HEADER
  | St_REPORT_BODY_BEGIN_METAR | St_REPORT_BODY_BEGIN_METAR_REPEAT_PARSE | St_REPORT_BODY_METAR =>
    RP_METAR
  | St_REPORT_BODY_BEGIN_TAF | St_REPORT_BODY_TAF => RP_TAF
  | St_REMARK_METAR | St_REMARK_TAF => RP_RMK
  | St_NIL | St_CNL | St_ERROR => RP_UNKNOWN
  end.
(** 6998-7019 *)
Definition transitionFromReportTypeOrLocation (s : Status) (g : SyntaxGroup) : Status :=
  match g with
  | SG_METAR | SG_SPECI => setState (setReportType s RT_METAR) St_CORRECTION
  | SG_TAF => setState (setReportType s RT_TAF) St_CORRECTION
  | SG_LOCATION => setState s St_REPORT_TIME
  | _ => setError s RE_EXPECTED_REPORT_TYPE_OR_LOCATION
  end.
(** 7021-7041 *)
Definition transitionFromCorrecton (s : Status) (g : SyntaxGroup) : Status :=
  match g with
  | SG_AMD =>
    let s := setState s St_LOCATION in
    if negb (ReportType_beq (st_type s) RT_TAF) then setError s RE_AMD_ALLOWED_IN_TAF_ONLY else s
  | SG_COR => setState s St_LOCATION
  | SG_LOCATION => setState s St_REPORT_TIME
  | _ => setError s RE_EXPECTED_LOCATION
  end.
(** 7043-7069 *)
Definition transitionFromReportTime (s : Status) (g : SyntaxGroup) : Status :=
  match g with
  | SG_REPORT_TIME =>
    if ReportType_beq (st_type s) RT_METAR then setState s St_REPORT_BODY_BEGIN_METAR
    else setState s St_TIME_SPAN
  | SG_TIME_SPAN =>
    if ReportType_beq (st_type s) RT_TAF then setState s St_REPORT_BODY_BEGIN_TAF
    else setError s RE_EXPECTED_REPORT_TIME
  | SG_NIL => setState s St_NIL
  | _ => setError s RE_EXPECTED_REPORT_TIME
  end.
(** 7071-7091 *)
Definition transitionFromTimeSpan (s : Status) (g : SyntaxGroup) : Status :=
  match g with
  | SG_TIME_SPAN => setState (setReportType s RT_TAF) St_REPORT_BODY_BEGIN_TAF
  | SG_NIL => setState s St_NIL
  | _ =>
    if ReportType_beq (st_type s) RT_UNKNOWN
    then setState (setReportType s RT_METAR) St_REPORT_BODY_BEGIN_METAR_REPEAT_PARSE
    else setError s RE_EXPECTED_TIME_SPAN
  end.
(** 7093-7111 *)
Definition transitionFromReportBodyBeginMetar (s : Status) (g : SyntaxGroup) : Status :=
  match g with
  | SG_NIL => setState s St_NIL
  | SG_CNL => setError s RE_CNL_ALLOWED_IN_TAF_ONLY
  | SG_RMK => setState s St_REMARK_METAR
  | _ => setState s St_REPORT_BODY_METAR
  end.
(** 7113-7127 *)
Definition transitionFromReportBodyMetar (s : Status) (g : SyntaxGroup) : Status :=
  match g with
  | SG_RMK => setState s St_REMARK_METAR
  | SG_NIL | SG_CNL => setError s RE_UNEXPECTED_NIL_OR_CNL_IN_REPORT_BODY
  | _ => s
  end.
(** 7129-7151 *)
Definition transitionFromReportBodyBeginTaf (s : Status) (g : SyntaxGroup) : Status :=
  match g with
  | SG_NIL => setState s St_NIL
  | SG_CNL => setState s St_CNL
  | SG_RMK => setState s St_REMARK_TAF
  | SG_MAINTENANCE_INDICATOR => setError s RE_MAINTENANCE_INDICATOR_ALLOWED_IN_METAR_ONLY
  | _ => setState s St_REPORT_BODY_TAF
  end.
(** 7153-7171 *)
Definition transitionFromReportBodyTaf (s : Status) (g : SyntaxGroup) : Status :=
  match g with
  | SG_RMK => setState s St_REMARK_TAF
  | SG_NIL | SG_CNL => setError s RE_UNEXPECTED_NIL_OR_CNL_IN_REPORT_BODY
  | SG_MAINTENANCE_INDICATOR => setError s RE_MAINTENANCE_INDICATOR_ALLOWED_IN_METAR_ONLY
  | _ => s
  end.
(** 6938-6996 *)
Definition transition (s : Status) (g : SyntaxGroup) : Status :=
  match st_state s with
  | St_REPORT_TYPE_OR_LOCATION => transitionFromReportTypeOrLocation s g
  | St_CORRECTION => transitionFromCorrecton s g
  | St_LOCATION =>
    if SyntaxGroup_beq g SG_LOCATION then setState s St_REPORT_TIME
    else setError s RE_EXPECTED_LOCATION
  | St_REPORT_TIME => transitionFromReportTime s g
  | St_TIME_SPAN => transitionFromTimeSpan s g
  | St_REPORT_BODY_BEGIN_METAR | St_REPORT_BODY_BEGIN_METAR_REPEAT_PARSE =>
    transitionFromReportBodyBeginMetar s g
  | St_REPORT_BODY_METAR => transitionFromReportBodyMetar s g
  | St_REPORT_BODY_BEGIN_TAF => transitionFromReportBodyBeginTaf s g
  | St_REPORT_BODY_TAF => transitionFromReportBodyTaf s g
  | St_REMARK_TAF =>
    if SyntaxGroup_beq g SG_MAINTENANCE_INDICATOR
    then setError s RE_MAINTENANCE_INDICATOR_ALLOWED_IN_METAR_ONLY else s
  | St_NIL => setError s RE_UNEXPECTED_GROUP_AFTER_NIL
  | St_CNL => setError s RE_UNEXPECTED_GROUP_AFTER_CNL
  | St_REMARK_METAR | St_ERROR => s
  end.
(** 7173-7198 *)
Definition finalTransition (s : Status) : Status :=
  match st_state s with
  | St_REPORT_BODY_METAR | St_REPORT_BODY_TAF | St_REMARK_METAR | St_REMARK_TAF | St_NIL | St_CNL
  | St_ERROR => s
  | St_REPORT_TYPE_OR_LOCATION => setError s RE_EMPTY_REPORT
  | St_CORRECTION | St_LOCATION | St_REPORT_TIME | St_TIME_SPAN | St_REPORT_BODY_BEGIN_METAR
  | St_REPORT_BODY_BEGIN_METAR_REPEAT_PARSE | St_REPORT_BODY_BEGIN_TAF =>
    setError s RE_UNEXPECTED_REPORT_END
  end.

(* ------------------------------------------------------------------ *)
(** ** Parser::updateMetadata (7200-7275) *)

(** Field updates of ReportMetadata *)
Definition md_set_flag (m : ReportMetadata) (k : KwType) : ReportMetadata :=
  let is (x : KwType) (b : bool) := b || KwType_beq k x in
  mkMetadata (md_type m) (md_error m) (md_reportTime m) (md_icaoLocation m)
    (is Kw_SPECI (md_isSpeci m)) (is Kw_NOSPECI (md_isNospeci m)) (is Kw_AUTO (md_isAutomated m))
    (is Kw_AO1 (md_isAo1 m)) (is Kw_AO1A (md_isAo1a m)) (is Kw_AO2 (md_isAo2 m))
    (is Kw_AO2A (md_isAo2a m)) (is Kw_NIL (md_isNil m)) (is Kw_CNL (md_isCancelled m))
    (is Kw_AMD (md_isAmended m)) (is Kw_COR (md_isCorrectional m)) (md_correctionNumber m)
    (is Kw_MAINTENANCE_INDICATOR (md_maintenanceIndicator m))
    (md_timeSpanFrom m) (md_timeSpanUntil m).
Definition md_set_reportTime (m : ReportMetadata) (t : MetafTime) : ReportMetadata :=
  mkMetadata (md_type m) (md_error m) (Some t) (md_icaoLocation m) (md_isSpeci m) (md_isNospeci m)
    (md_isAutomated m) (md_isAo1 m) (md_isAo1a m) (md_isAo2 m) (md_isAo2a m) (md_isNil m)
    (md_isCancelled m) (md_isAmended m) (md_isCorrectional m) (md_correctionNumber m)
    (md_maintenanceIndicator m) (md_timeSpanFrom m) (md_timeSpanUntil m).
Definition md_set_icaoLocation (m : ReportMetadata) (s : string) : ReportMetadata :=
  mkMetadata (md_type m) (md_error m) (md_reportTime m) s (md_isSpeci m) (md_isNospeci m)
    (md_isAutomated m) (md_isAo1 m) (md_isAo1a m) (md_isAo2 m) (md_isAo2a m) (md_isNil m)
    (md_isCancelled m) (md_isAmended m) (md_isCorrectional m) (md_correctionNumber m)
    (md_maintenanceIndicator m) (md_timeSpanFrom m) (md_timeSpanUntil m).
Definition md_set_correction (m : ReportMetadata) (n : N) : ReportMetadata :=
  mkMetadata (md_type m) (md_error m) (md_reportTime m) (md_icaoLocation m) (md_isSpeci m)
    (md_isNospeci m) (md_isAutomated m) (md_isAo1 m) (md_isAo1a m) (md_isAo2 m) (md_isAo2a m)
    (md_isNil m) (md_isCancelled m) (md_isAmended m) true (Some n)
    (md_maintenanceIndicator m) (md_timeSpanFrom m) (md_timeSpanUntil m).
Definition md_set_timeSpan (m : ReportMetadata) (f u : option MetafTime) : ReportMetadata :=
  mkMetadata (md_type m) (md_error m) (md_reportTime m) (md_icaoLocation m) (md_isSpeci m)
    (md_isNospeci m) (md_isAutomated m) (md_isAo1 m) (md_isAo1a m) (md_isAo2 m) (md_isAo2a m)
    (md_isNil m) (md_isCancelled m) (md_isAmended m) (md_isCorrectional m) (md_correctionNumber m)
    (md_maintenanceIndicator m) f u.
Definition md_set_typeError (m : ReportMetadata) (t : ReportType) (e : ReportError)
  : ReportMetadata :=
  mkMetadata t e (md_reportTime m) (md_icaoLocation m) (md_isSpeci m)
    (md_isNospeci m) (md_isAutomated m) (md_isAo1 m) (md_isAo1a m) (md_isAo2 m) (md_isAo2a m)
    (md_isNil m) (md_isCancelled m) (md_isAmended m) (md_isCorrectional m) (md_correctionNumber m)
    (md_maintenanceIndicator m) (md_timeSpanFrom m) (md_timeSpanUntil m).
(** 7200-7275. The five tests are on different alternatives of the variant, so at most one is
    taken. Assigning the float to optional<unsigned int> (7263) truncates. *)
Definition updateMetadata (g : Group) (m : ReportMetadata) : res ReportMetadata :=
  match g with
  | GKeyword k => Ok (md_set_flag m (kw_t k))
  | GReportTime t => Ok (md_set_reportTime m (rt_t t))
  | GLocation l => Ok (md_set_icaoLocation m (LocationGroup_toString l))
  | GMisc c =>
    if MsType_beq (ms_type c) Ms_CORRECTED_WEATHER_OBSERVATION && has_value (ms_data c) then
      let! d := deref (ms_data c) in
      let! n := trunc_to_uint d in
      Ok (md_set_correction m n)
    else Ok m
  | GTrend t =>
    if negb (ReportType_beq (md_type m) RT_METAR) && TrType_beq (tr_t t) Tr_TIME_SPAN
       && negb (has_value (md_timeSpanFrom m)) && negb (has_value (md_timeSpanUntil m))
    then Ok (md_set_timeSpan m (tr_from t) (tr_till t))
    else Ok m
  | _ => Ok m
  end.

(* ------------------------------------------------------------------ *)
(** ** Parser::parse and its helpers (2063-2069, 2150-2153, 6756-6875) *)

Record GroupInfo := mkGroupInfo                                           (* 2066-2068 *)
  { gi_group : Group; gi_reportPart : ReportPart; gi_rawString : string }.
Record ParseResult := mkParseResult                                       (* 2150-2153 *)
  { pr_metadata : ReportMetadata; pr_groups : list GroupInfo }.

(** While the report is being parsed, the vector result.groups is represented in reverse order, so
    that back() is the head of the list; [parse] reverses it at the end. *)

(** 6859-6875 *)
Definition addGroupToResult (groups : list GroupInfo) (g : Group) (part : ReportPart) (s : string)
  : list GroupInfo :=
  match groups with
  | last :: rest =>
    if is_fallback g && is_fallback (gi_group last)
    then mkGroupInfo (gi_group last) (gi_reportPart last) (gi_rawString last ++ String " " s) :: rest
    else mkGroupInfo g part s :: groups
  | [] => [mkGroupInfo g part s]
  end.

(** 6807-6857 with allowReparse = false. The group info whose raw string has been moved from (6840)
    stays in the vector; a moved-from std::string is modelled as the empty string. *)
Definition appendToLastResultGroup_noReparse (groups : list GroupInfo) (s : string)
  (part : ReportPart) (md : ReportMetadata) : res (list GroupInfo * bool) :=
  match groups with
  | [] => Ok (groups, false)
  | last :: rest =>
    if is_fallback (gi_group last) then Ok (groups, false) else
    let! ' (g, a) := Group_append (gi_group last) s part md in
    match a with
    | APPENDED =>
      Ok (mkGroupInfo g (gi_reportPart last) (gi_rawString last ++ String " " s) :: rest, true)
    | NOT_APPENDED => Ok (mkGroupInfo g (gi_reportPart last) (gi_rawString last) :: rest, false)
    | GROUP_INVALIDATED =>
      Ok (addGroupToResult (mkGroupInfo g (gi_reportPart last) "" :: rest)
            (GUnknown mkUnknown) (gi_reportPart last) (gi_rawString last), false)
    end
  end.
(** 6807-6857 with allowReparse = true *)
Definition appendToLastResultGroup (groups : list GroupInfo) (s : string)
  (part : ReportPart) (md : ReportMetadata) : res (list GroupInfo * bool) :=
  match groups with
  | [] => Ok (groups, false)
  | last :: rest =>
    if is_fallback (gi_group last) then Ok (groups, false) else
    let! ' (g, a) := Group_append (gi_group last) s part md in
    match a with
    | APPENDED =>
      Ok (mkGroupInfo g (gi_reportPart last) (gi_rawString last ++ String " " s) :: rest, true)
    | NOT_APPENDED => Ok (mkGroupInfo g (gi_reportPart last) (gi_rawString last) :: rest, false)
    | GROUP_INVALIDATED =>
      let! reparsed := GroupParser_reparse (gi_rawString last) (gi_reportPart last) md g in
      let groups' := addGroupToResult rest reparsed (gi_reportPart last) (gi_rawString last) in
      if is_fallback reparsed then Ok (groups', false)
      else appendToLastResultGroup_noReparse groups' s part md
    end
  end.

(** 6781-6782, 6788-6789 *)
Definition count_group (groupLimit count : nat) (st : Status) : nat * Status :=
  let count := S count in
  (count, if Nat.leb groupLimit count then setError st RE_REPORT_TOO_LARGE else st).

(** 6774-6783: (group, reportPart, groupCount, status) *)
Fixpoint parse_group_loop (fuel groupLimit : nat) (s : string) (md : ReportMetadata) (count : nat)
  (st : Status) : res (Group * ReportPart * nat * Status) :=
  match fuel with
  | O => Bad Fuel
  | S fuel' =>
    let part := getReportPart st in
    let! g := GroupParser_parse s part md in
    let st := transition st (getSyntaxGroup g) in
    let '(count, st) := count_group groupLimit count st in
    if isReparseRequired st && negb (isError st)
    then parse_group_loop fuel' groupLimit s md count st
    else Ok (g, part, count, st)
  end.

(** The local variables of Parser::parse (6760-6763) *)
Record ParserState := mkParserState
  { ps_status : Status; ps_md : ReportMetadata; ps_groups : list GroupInfo; ps_count : nat }.
Definition ps_init : ParserState := mkParserState Status_init md_default [] 0.

(** 6770-6790: the loop body up to reading the next group *)
Definition parse_step (groupLimit : nat) (s : string) (p : ParserState) : res ParserState :=
  let part := getReportPart (ps_status p) in
  let! ' (groups, appended) := appendToLastResultGroup (ps_groups p) s part (ps_md p) in
  if negb (appended : bool) then
    let! ' (g, part, count, st) :=
      parse_group_loop 3 groupLimit s (ps_md p) (ps_count p) (ps_status p) in
    let! md := updateMetadata g (ps_md p) in
    Ok (mkParserState st md (addGroupToResult groups g part s) count)
  else
    let '(count, st) := count_group groupLimit (ps_count p) (ps_status p) in
    Ok (mkParserState st (ps_md p) groups count).

(** 6767-6793 *)
Fixpoint parse_loop (sgn : bool) (report : string) (groupLimit fuel : nat) (i : ReportInput)
  (s : string) (p : ParserState) : res ParserState :=
  match fuel with
  | O => Bad Fuel
  | S fuel' =>
    if negb (sempty s) && negb (isError (ps_status p)) then
      let! p := parse_step groupLimit s p in
      let! ' (s, i) := getNextGroup sgn report i in
      parse_loop sgn report groupLimit fuel' i s p
    else Ok p
  end.

(** 6794-6804 *)
Definition parse_end (p : ParserState) : res ParseResult :=
  let! groups :=
    match ps_groups p with
    | [] => Ok []
    | _ =>
      let! ' (groups, _) :=
        appendToLastResultGroup (ps_groups p) "" (getReportPart (ps_status p)) (ps_md p) in
      match groups with
      | [] => Bad UB                                                       (* back() of empty *)
      | last :: rest => Ok (if sempty (gi_rawString last) then rest else groups)
      end
    end in
  let st := finalTransition (ps_status p) in
  Ok (mkParseResult (md_set_typeError (ps_md p) (st_type st) (st_error st)) (List.rev groups)).

(** 6756-6805; [sgn] tells whether plain char is signed. The loop is given one more iteration than
    the report has characters (every group it handles is non-empty). *)
Definition parse (sgn : bool) (report : string) (groupLimit : nat) : res ParseResult :=
  let! ' (s, i) := getNextGroup sgn report (mkInput false 0) in
  let! p := parse_loop sgn report groupLimit (S (slen report)) i s ps_init in
  parse_end p.
Definition default_groupLimit : nat := 200.                               (* 2157 *)

(* ------------------------------------------------------------------ *)
(** ** Visitor (2244-2494) *)

(** The 22 pure virtual functions a user overrides (2253-2319) *)
Record Visitor (T : Type) := mkVisitor
  { visitKeywordGroup : KeywordGroup -> ReportPart -> string -> T;
    visitLocationGroup : LocationGroup -> ReportPart -> string -> T;
    visitReportTimeGroup : ReportTimeGroup -> ReportPart -> string -> T;
    visitTrendGroup : TrendGroup -> ReportPart -> string -> T;
    visitWindGroup : WindGroup -> ReportPart -> string -> T;
    visitVisibilityGroup : VisibilityGroup -> ReportPart -> string -> T;
    visitCloudGroup : CloudGroup -> ReportPart -> string -> T;
    visitWeatherGroup : WeatherGroup -> ReportPart -> string -> T;
    visitTemperatureGroup : TemperatureGroup -> ReportPart -> string -> T;
    visitPressureGroup : PressureGroup -> ReportPart -> string -> T;
    visitRunwayStateGroup : RunwayStateGroup -> ReportPart -> string -> T;
    visitSeaSurfaceGroup : SeaSurfaceGroup -> ReportPart -> string -> T;
    visitMinMaxTemperatureGroup : MinMaxTemperatureGroup -> ReportPart -> string -> T;
    visitPrecipitationGroup : PrecipitationGroup -> ReportPart -> string -> T;
    visitLayerForecastGroup : LayerForecastGroup -> ReportPart -> string -> T;
    visitPressureTendencyGroup : PressureTendencyGroup -> ReportPart -> string -> T;
    visitCloudTypesGroup : CloudTypesGroup -> ReportPart -> string -> T;
    visitLowMidHighCloudGroup : LowMidHighCloudGroup -> ReportPart -> string -> T;
    visitLightningGroup : LightningGroup -> ReportPart -> string -> T;
    visitVicinityGroup : VicinityGroup -> ReportPart -> string -> T;
    visitMiscGroup : MiscGroup -> ReportPart -> string -> T;
    visitUnknownGroup : UnknownGroup -> ReportPart -> string -> T }.
Arguments visitKeywordGroup {T}. Arguments visitLocationGroup {T}.
Arguments visitReportTimeGroup {T}. Arguments visitTrendGroup {T}. Arguments visitWindGroup {T}.
Arguments visitVisibilityGroup {T}. Arguments visitCloudGroup {T}. Arguments visitWeatherGroup {T}.
Arguments visitTemperatureGroup {T}. Arguments visitPressureGroup {T}.
Arguments visitRunwayStateGroup {T}. Arguments visitSeaSurfaceGroup {T}.
Arguments visitMinMaxTemperatureGroup {T}. Arguments visitPrecipitationGroup {T}.
Arguments visitLayerForecastGroup {T}. Arguments visitPressureTendencyGroup {T}.
Arguments visitCloudTypesGroup {T}. Arguments visitLowMidHighCloudGroup {T}.
Arguments visitLightningGroup {T}. Arguments visitVicinityGroup {T}. Arguments visitMiscGroup {T}.
Arguments visitUnknownGroup {T}.

(** std::get_if<Alternative>, by position in the variant *)
Definition as_Keyword (g : Group) := match g with GKeyword x => Some x | _ => None end.
Definition as_Location (g : Group) := match g with GLocation x => Some x | _ => None end.
Definition as_ReportTime (g : Group) := match g with GReportTime x => Some x | _ => None end.
Definition as_Trend (g : Group) := match g with GTrend x => Some x | _ => None end.
Definition as_Wind (g : Group) := match g with GWind x => Some x | _ => None end.
Definition as_Visibility (g : Group) := match g with GVisibility x => Some x | _ => None end.
Definition as_Cloud (g : Group) := match g with GCloud x => Some x | _ => None end.
Definition as_Weather (g : Group) := match g with GWeather x => Some x | _ => None end.
Definition as_Temperature (g : Group) := match g with GTemperature x => Some x | _ => None end.
Definition as_Pressure (g : Group) := match g with GPressure x => Some x | _ => None end.
Definition as_RunwayState (g : Group) := match g with GRunwayState x => Some x | _ => None end.
Definition as_SeaSurface (g : Group) := match g with GSeaSurface x => Some x | _ => None end.
Definition as_MinMaxTemperature (g : Group) :=
  match g with GMinMaxTemperature x => Some x | _ => None end.
Definition as_Precipitation (g : Group) := match g with GPrecipitation x => Some x | _ => None end.
Definition as_LayerForecast (g : Group) := match g with GLayerForecast x => Some x | _ => None end.
Definition as_PressureTendency (g : Group) :=
  match g with GPressureTendency x => Some x | _ => None end.
Definition as_CloudTypes (g : Group) := match g with GCloudTypes x => Some x | _ => None end.
Definition as_LowMidHighCloud (g : Group) :=
  match g with GLowMidHighCloud x => Some x | _ => None end.
Definition as_Lightning (g : Group) := match g with GLightning x => Some x | _ => None end.
Definition as_Vicinity (g : Group) := match g with GVicinity x => Some x | _ => None end.
Definition as_Misc (g : Group) := match g with GMisc x => Some x | _ => None end.
Definition as_Unknown (g : Group) := match g with GUnknown x => Some x | _ => None end.

(** [if (const auto gr = std::get_if<...>(&group); gr) return f( *gr, reportPart, rawString);] *)
Definition visit_case {A T : Type} (o : option A) (f : A -> ReportPart -> string -> T)
  (part : ReportPart) (raw : string) (rest : list T) : list T :=
  match o with Some x => [f x part raw] | None => rest end.
(** 2322-2394 (and 2396-2489 for T = void): the list holds the values returned by the calls the
    function makes, in order; [dflt] is the value-initialised T() of 2393 *)
Definition Visitor_calls {T : Type} (v : Visitor T) (g : Group) (part : ReportPart) (raw : string)
  : list T :=
  visit_case (as_Keyword g) (visitKeywordGroup v) part raw (
  visit_case (as_Location g) (visitLocationGroup v) part raw (
  visit_case (as_ReportTime g) (visitReportTimeGroup v) part raw (
  visit_case (as_Trend g) (visitTrendGroup v) part raw (
  visit_case (as_Wind g) (visitWindGroup v) part raw (
  visit_case (as_Visibility g) (visitVisibilityGroup v) part raw (
  visit_case (as_Cloud g) (visitCloudGroup v) part raw (
  visit_case (as_Weather g) (visitWeatherGroup v) part raw (
  visit_case (as_Temperature g) (visitTemperatureGroup v) part raw (
  visit_case (as_Pressure g) (visitPressureGroup v) part raw (
  visit_case (as_RunwayState g) (visitRunwayStateGroup v) part raw (
  visit_case (as_SeaSurface g) (visitSeaSurfaceGroup v) part raw (
  visit_case (as_MinMaxTemperature g) (visitMinMaxTemperatureGroup v) part raw (
  visit_case (as_Precipitation g) (visitPrecipitationGroup v) part raw (
  visit_case (as_LayerForecast g) (visitLayerForecastGroup v) part raw (
  visit_case (as_PressureTendency g) (visitPressureTendencyGroup v) part raw (
  visit_case (as_CloudTypes g) (visitCloudTypesGroup v) part raw (
  visit_case (as_LowMidHighCloud g) (visitLowMidHighCloudGroup v) part raw (
  visit_case (as_Lightning g) (visitLightningGroup v) part raw (
  visit_case (as_Vicinity g) (visitVicinityGroup v) part raw (
  visit_case (as_Misc g) (visitMiscGroup v) part raw (
  visit_case (as_Unknown g) (visitUnknownGroup v) part raw (
  [])))))))))))))))))))))).
Definition Visitor_visit {T : Type} (dflt : T) (v : Visitor T) (g : Group) (part : ReportPart)
  (raw : string) : T :=
  match Visitor_calls v g part raw with r :: _ => r | [] => dflt end.
(** 2249-2251, 2491-2494 *)
Definition Visitor_visitInfo {T : Type} (dflt : T) (v : Visitor T) (i : GroupInfo) : T :=
  Visitor_visit dflt v (gi_group i) (gi_reportPart i) (gi_rawString i).
