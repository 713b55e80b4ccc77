(** Report-level enumerations, metadata, and the group classes Keyword, Location, ReportTime,
    Trend and Wind (metaf.hpp 822-1126, 4133-4690). Definitions only. *)

From Verif Require Import Prim Regex Float Values Weather.
Local Open Scope string_scope.
Local Open Scope N_scope.

(** 822-826 *)
Inductive ReportType := RT_UNKNOWN | RT_METAR | RT_TAF.
Scheme Equality for ReportType.
(** 828-834 *)
Inductive ReportPart := RP_UNKNOWN | RP_HEADER | RP_METAR | RP_TAF | RP_RMK.
Scheme Equality for ReportPart.
(** 836-851 *)
Inductive ReportError := RE_NONE | RE_EMPTY_REPORT | RE_EXPECTED_REPORT_TYPE_OR_LOCATION
| RE_EXPECTED_LOCATION | RE_EXPECTED_REPORT_TIME | RE_EXPECTED_TIME_SPAN
| RE_UNEXPECTED_REPORT_END | RE_UNEXPECTED_GROUP_AFTER_NIL | RE_UNEXPECTED_GROUP_AFTER_CNL
| RE_UNEXPECTED_NIL_OR_CNL_IN_REPORT_BODY | RE_AMD_ALLOWED_IN_TAF_ONLY
| RE_CNL_ALLOWED_IN_TAF_ONLY | RE_MAINTENANCE_INDICATOR_ALLOWED_IN_METAR_ONLY
| RE_REPORT_TOO_LARGE.
Scheme Equality for ReportError.

(** 853-872 *)
Record ReportMetadata := mkMetadata
  { md_type : ReportType; md_error : ReportError; md_reportTime : option MetafTime;
    md_icaoLocation : string; md_isSpeci : bool; md_isNospeci : bool; md_isAutomated : bool;
    md_isAo1 : bool; md_isAo1a : bool; md_isAo2 : bool; md_isAo2a : bool; md_isNil : bool;
    md_isCancelled : bool; md_isAmended : bool; md_isCorrectional : bool;
    md_correctionNumber : option N; md_maintenanceIndicator : bool;
    md_timeSpanFrom : option MetafTime; md_timeSpanUntil : option MetafTime }.
(** 853-874: default member initialisers; also missingMetadata *)
Definition md_default : ReportMetadata :=
  mkMetadata RT_UNKNOWN RE_NONE None "" false false false false false false false false false
    false false (Some 0) false None None.

(** 879-901 *)
Inductive AppendResult := APPENDED | NOT_APPENDED | GROUP_INVALIDATED.
Scheme Equality for AppendResult.

Definition is_part (a b : ReportPart) : bool := ReportPart_beq a b.

(* ------------------------------------------------------------------ *)
(** ** KeywordGroup (919-953, 4133-4177) *)

Inductive KwType := Kw_METAR | Kw_SPECI | Kw_TAF | Kw_AMD | Kw_NIL | Kw_CNL | Kw_COR | Kw_AUTO
| Kw_CAVOK | Kw_RMK | Kw_MAINTENANCE_INDICATOR | Kw_AO1 | Kw_AO2 | Kw_AO1A | Kw_AO2A | Kw_NOSPECI.
Scheme Equality for KwType.
Record KeywordGroup := mkKeyword { kw_t : KwType }.
Definition KeywordGroup_isValid (g : KeywordGroup) : bool := true.       (* 940 *)

(** 4133-4169 *)
Definition KeywordGroup_parse (group : string) (part : ReportPart) (md : ReportMetadata)
  : res (option KeywordGroup) :=
  let hdr := is_part part RP_HEADER in
  let metar := is_part part RP_METAR in
  let taf := is_part part RP_TAF in
  let rmk := is_part part RP_RMK in
  let r (t : KwType) : res (option KeywordGroup) := Ok (Some (mkKeyword t)) in
  if hdr && seqb group "METAR" then r Kw_METAR else
  if hdr && seqb group "SPECI" then r Kw_SPECI else
  if hdr && seqb group "TAF" then r Kw_TAF else
  if hdr && seqb group "AMD" then r Kw_AMD else
  if (hdr || metar) && seqb group "COR" then r Kw_COR else
  if (hdr || metar || taf) && seqb group "NIL" then r Kw_NIL else
  if (hdr || metar || taf) && seqb group "CNL" then r Kw_CNL else
  if metar && seqb group "AUTO" then r Kw_AUTO else
  if (metar || taf) && seqb group "CAVOK" then r Kw_CAVOK else
  if (metar || taf) && seqb group "RMK" then r Kw_RMK else
  if rmk && seqb group "AO1" then r Kw_AO1 else
  if rmk && seqb group "AO2" then r Kw_AO2 else
  if rmk && seqb group "AO1A" then r Kw_AO1A else
  if rmk && seqb group "AO2A" then r Kw_AO2A else
  if rmk && seqb group "NOSPECI" then r Kw_NOSPECI else
  if seqb group "$" then r Kw_MAINTENANCE_INDICATOR else
  Ok None.
(** 4171-4177 *)
Definition KeywordGroup_append (g : KeywordGroup) (group : string) (part : ReportPart)
  (md : ReportMetadata) : res (KeywordGroup * AppendResult) := Ok (g, NOT_APPENDED).

(* ------------------------------------------------------------------ *)
(** ** LocationGroup (955-971, 4181-4202) *)

Record LocationGroup := mkLocation { loc_location : string }.
Definition LocationGroup_toString (g : LocationGroup) : string := loc_location g. (* 957 *)
Definition LocationGroup_isValid (g : LocationGroup) : bool := true.     (* 958 *)
(** strncpy(dst, s, n) into a zero-terminated buffer: at most n bytes, stopping at NUL *)
Fixpoint strncpy (n : nat) (s : string) : string :=
  match n, s with
  | S k, String c t => if Ascii.eqb c chr0 then "" else String c (strncpy k t)
  | _, _ => ""
  end.
Definition rgx_location : re := Eval vm_compute in rx "[A-Z][A-Z0-9]{3}". (* 4188 *)
(** 4181-4194 *)
Definition LocationGroup_parse (group : string) (part : ReportPart) (md : ReportMetadata)
  : res (option LocationGroup) :=
  if negb (is_part part RP_HEADER) then Ok None else
  if negb (is_match rgx_location group) then Ok None else
  Ok (Some (mkLocation (strncpy 4 group))).
(** 4196-4202 *)
Definition LocationGroup_append (g : LocationGroup) (group : string) (part : ReportPart)
  (md : ReportMetadata) : res (LocationGroup * AppendResult) := Ok (g, NOT_APPENDED).

(* ------------------------------------------------------------------ *)
(** ** ReportTimeGroup (973-989, 4206-4230) *)

Record ReportTimeGroup := mkReportTime { rt_t : MetafTime }.
(** 976 *)
Definition ReportTimeGroup_isValid (g : ReportTimeGroup) : bool :=
  MetafTime_isValid (rt_t g) && has_value (dayValue (rt_t g)).
Definition rgx_reporttime : re := Eval vm_compute in rx "\d\d\d\d\d\dZ". (* 4212 *)
(** 4206-4222 *)
Definition ReportTimeGroup_parse (group : string) (part : ReportPart) (md : ReportMetadata)
  : res (option ReportTimeGroup) :=
  if negb (is_part part RP_HEADER) then Ok None else
  if negb (is_match rgx_reporttime group) then Ok None else
  let! ts := substr group 0 6 in
  let? tm := MetafTime_fromStringDDHHMM ts in
  if negb (has_value (dayValue tm)) then Ok None else
  Ok (Some (mkReportTime tm)).
(** 4224-4230 *)
Definition ReportTimeGroup_append (g : ReportTimeGroup) (group : string) (part : ReportPart)
  (md : ReportMetadata) : res (ReportTimeGroup * AppendResult) := Ok (g, NOT_APPENDED).

(* ------------------------------------------------------------------ *)
(** ** TrendGroup (991-1059, 4234-4465) *)

Inductive TrType := Tr_NOSIG | Tr_BECMG | Tr_TEMPO | Tr_INTER | Tr_FROM | Tr_UNTIL | Tr_AT
| Tr_TIME_SPAN | Tr_PROB.
Scheme Equality for TrType.
Inductive TrProb := Pr_NONE | Pr_30 | Pr_40.
Scheme Equality for TrProb.
Record TrendGroup := mkTrend
  { tr_t : TrType; tr_prob : TrProb; tr_isTafTimeSpanGroup : bool;
    tr_from : option MetafTime; tr_till : option MetafTime; tr_at : option MetafTime }.
Definition Trend_ofType (t : TrType) : TrendGroup := mkTrend t Pr_NONE false None None None. (* 1033 *)
Definition Trend_ofProb (p : TrProb) : TrendGroup := mkTrend Tr_PROB p false None None None. (* 1034 *)

Definition time_ok (o : option MetafTime) : bool :=
  match o with Some t => MetafTime_isValid t | None => true end.
(** 1014-1020 *)
Definition TrendGroup_isValid (g : TrendGroup) : bool :=
  negb (TrType_beq (tr_t g) Tr_PROB) && time_ok (tr_from g) && time_ok (tr_till g)
  && time_ok (tr_at g).

Definition rgx_timespan : re := Eval vm_compute in rx "(\d\d\d\d)/(\d\d\d\d)". (* 4287, 4305 *)
Definition rgx_fm : re := Eval vm_compute in rx "FM\d\d\d\d\d\d".        (* 4323 *)
Definition rgx_trendtime : re := Eval vm_compute in rx "([FTA][MLT])(\d\d\d\d)". (* 4337 *)

(** 4285-4301 *)
Definition Trend_fromTimeSpan (s : string) : res (option TrendGroup) :=
  match regex_match rgx_timespan s with
  | None => Ok None
  | Some m =>
    let! from := MetafTime_fromStringDDHH (mstr m 1) in
    let! till := MetafTime_fromStringDDHH (mstr m 2) in
    match from, till with
    | Some f, Some t => Ok (Some (mkTrend Tr_TIME_SPAN Pr_NONE true (Some f) (Some t) None))
    | _, _ => Ok None
    end
  end.
(** 4303-4319 *)
Definition Trend_fromTimeSpanHHMM (s : string) : res (option TrendGroup) :=
  match regex_match rgx_timespan s with
  | None => Ok None
  | Some m =>
    let! from := MetafTime_fromStringDDHHMM (mstr m 1) in
    let! till := MetafTime_fromStringDDHHMM (mstr m 2) in
    match from, till with
    | Some f, Some t => Ok (Some (mkTrend Tr_TIME_SPAN Pr_NONE true (Some f) (Some t) None))
    | _, _ => Ok None
    end
  end.
(** 4321-4333 *)
Definition Trend_fromFm (s : string) : res (option TrendGroup) :=
  if negb (is_match rgx_fm s) then Ok None else
  let! ts := substr s 2 6 in
  let? time := MetafTime_fromStringDDHHMM ts in
  Ok (Some (mkTrend Tr_FROM Pr_NONE false (Some time) None None)).
(** 4335-4360 *)
Definition Trend_fromTrendTime (s : string) : res (option TrendGroup) :=
  match regex_match rgx_trendtime s with
  | None => Ok None
  | Some m =>
    let? time := MetafTime_fromStringDDHHMM (mstr m 2) in
    if seqb (mstr m 1) "FM" then Ok (Some (mkTrend Tr_FROM Pr_NONE false (Some time) None None)) else
    if seqb (mstr m 1) "TL" then Ok (Some (mkTrend Tr_UNTIL Pr_NONE false None (Some time) None)) else
    if seqb (mstr m 1) "AT" then Ok (Some (mkTrend Tr_AT Pr_NONE false None None (Some time))) else
    Ok None
  end.

(** [if (auto x = e; x.has_value()) return x;] *)
Definition or_else {A : Type} (e : res (option A)) (k : res (option A)) : res (option A) :=
  let! o := e in
  match o with Some a => Ok (Some a) | None => k end.

(** 4234-4268 *)
Definition TrendGroup_parse (group : string) (part : ReportPart) (md : ReportMetadata)
  : res (option TrendGroup) :=
  let hdr := is_part part RP_HEADER in
  let metar := is_part part RP_METAR in
  let taf := is_part part RP_TAF in
  if (metar || taf) && seqb group "BECMG" then Ok (Some (Trend_ofType Tr_BECMG)) else
  if (metar || taf) && seqb group "TEMPO" then Ok (Some (Trend_ofType Tr_TEMPO)) else
  if (metar || taf) && seqb group "INTER" then Ok (Some (Trend_ofType Tr_INTER)) else
  if taf && seqb group "PROB30" then Ok (Some (Trend_ofProb Pr_30)) else
  if taf && seqb group "PROB40" then Ok (Some (Trend_ofProb Pr_40)) else
  or_else (if taf then Trend_fromTimeSpan group else Ok None) (
  or_else (if taf then Trend_fromFm group else Ok None) (
  if metar && seqb group "NOSIG" then Ok (Some (Trend_ofType Tr_NOSIG)) else
  or_else (if metar then Trend_fromTrendTime group else Ok None) (
  or_else (if metar then Trend_fromTimeSpanHHMM group else Ok None) (
  if hdr || taf then Trend_fromTimeSpan group else Ok None)))).

(** 4399-4407 *)
Definition Trend_isProbabilityGroup (g : TrendGroup) : bool :=
  TrType_beq (tr_t g) Tr_PROB && negb (TrProb_beq (tr_prob g) Pr_NONE)
  && negb (has_value (tr_from g) || has_value (tr_till g)) && negb (has_value (tr_at g)).
(** BECMG / TEMPO / INTER, tested at 4372-4374 and 4412-4414 *)
Definition Trend_isBecmgTempoInter (t : TrType) : bool :=
  TrType_beq t Tr_BECMG || TrType_beq t Tr_TEMPO || TrType_beq t Tr_INTER.
(** 4409-4419 *)
Definition Trend_isTrendTypeGroup (g : TrendGroup) : bool :=
  Trend_isBecmgTempoInter (tr_t g) && TrProb_beq (tr_prob g) Pr_NONE
  && negb (has_value (tr_from g) || has_value (tr_till g)) && negb (has_value (tr_at g)).
(** 4421-4432 *)
Definition Trend_isTrendTimeGroup (g : TrendGroup) : bool :=
  (TrType_beq (tr_t g) Tr_FROM || TrType_beq (tr_t g) Tr_UNTIL || TrType_beq (tr_t g) Tr_AT)
  && TrProb_beq (tr_prob g) Pr_NONE
  && negb (negb (has_value (tr_from g)) && negb (has_value (tr_till g)) && negb (has_value (tr_at g)))
  && negb (has_value (tr_from g) && has_value (tr_till g))
  && negb (has_value (tr_from g) && has_value (tr_at g))
  && negb (has_value (tr_till g) && has_value (tr_at g)).
(** 4434-4446 *)
Definition Trend_isTimeSpanGroup (g : TrendGroup) : bool :=
  TrType_beq (tr_t g) Tr_TIME_SPAN && tr_isTafTimeSpanGroup g && TrProb_beq (tr_prob g) Pr_NONE
  && has_value (tr_from g) && has_value (tr_till g) && negb (has_value (tr_at g)).

(** 4448-4459 *)
Definition Trend_canCombineTime (g1 g2 : TrendGroup) : bool :=
  if has_value (tr_from g1) && has_value (tr_from g2) then false else
  if has_value (tr_till g1) && has_value (tr_till g2) then false else
  if has_value (tr_at g1) && has_value (tr_at g2) then false else
  if has_value (tr_at g1) && (has_value (tr_from g2) || has_value (tr_till g2)) then false else
  if has_value (tr_at g2) && (has_value (tr_from g1) || has_value (tr_till g1)) then false else
  true.
Definition opt_or {A : Type} (a b : option A) : option A :=
  match a with Some _ => a | None => b end.
(** 4461-4465 *)
Definition Trend_combineTime (g n : TrendGroup) : TrendGroup :=
  mkTrend (tr_t g) (tr_prob g) (tr_isTafTimeSpanGroup g)
    (opt_or (tr_from g) (tr_from n)) (opt_or (tr_till g) (tr_till n)) (opt_or (tr_at g) (tr_at n)).
Definition Trend_setType (g : TrendGroup) (t : TrType) : TrendGroup :=
  mkTrend t (tr_prob g) (tr_isTafTimeSpanGroup g) (tr_from g) (tr_till g) (tr_at g).

(** 4362-4369 *)
Definition Trend_combineProbAndTrendTypeGroups (g n : TrendGroup) : option TrendGroup :=
  if negb (Trend_isProbabilityGroup g) then None else
  if negb (Trend_isTrendTypeGroup n) then None else
  if negb (TrType_beq (tr_t n) Tr_TEMPO) && negb (TrType_beq (tr_t n) Tr_INTER) then None else
  Some (Trend_setType g (tr_t n)).
(** 4371-4380 *)
Definition Trend_combineTrendTypeAndTimeGroup (g n : TrendGroup) : option TrendGroup :=
  if negb (Trend_isBecmgTempoInter (tr_t g)) then None else
  if negb (Trend_isTimeSpanGroup n) && negb (Trend_isTrendTimeGroup n) then None else
  if negb (Trend_canCombineTime g n) then None else
  Some (Trend_combineTime g n).
(** 4382-4388 *)
Definition Trend_combineProbAndTimeSpanGroups (g n : TrendGroup) : option TrendGroup :=
  if negb (Trend_isProbabilityGroup g) then None else
  if negb (Trend_isTimeSpanGroup n) then None else
  Some (Trend_setType (Trend_combineTime g n) Tr_TIME_SPAN).
(** 4390-4397 *)
Definition Trend_combineIncompleteGroups (g n : TrendGroup) : option TrendGroup :=
  if negb (TrProb_beq (tr_prob g) Pr_NONE) || negb (TrType_beq (tr_t g) Tr_FROM)
     || negb (TrType_beq (tr_t n) Tr_UNTIL) then None else
  Some (mkTrend Tr_TIME_SPAN (tr_prob g) (tr_isTafTimeSpanGroup g) (tr_from g) (tr_till n) (tr_at g)).

(** 4270-4283 *)
Definition TrendGroup_append (g : TrendGroup) (group : string) (part : ReportPart)
  (md : ReportMetadata) : res (TrendGroup * AppendResult) :=
  if TrType_beq (tr_t g) Tr_NOSIG then Ok (g, NOT_APPENDED) else
  let! nextGroup := TrendGroup_parse group part md in
  match nextGroup with
  | None => Ok (g, NOT_APPENDED)
  | Some n =>
    match Trend_combineProbAndTrendTypeGroups g n with Some g' => Ok (g', APPENDED) | None =>
    match Trend_combineTrendTypeAndTimeGroup g n with Some g' => Ok (g', APPENDED) | None =>
    match Trend_combineProbAndTimeSpanGroups g n with Some g' => Ok (g', APPENDED) | None =>
    match Trend_combineIncompleteGroups g n with Some g' => Ok (g', APPENDED) | None =>
    Ok (g, NOT_APPENDED)
    end end end end
  end.

(* ------------------------------------------------------------------ *)
(** ** WindGroup (1061-1126, 4469-4690) *)

Inductive WiType := Wi_SURFACE_WIND | Wi_SURFACE_WIND_CALM | Wi_VARIABLE_WIND_SECTOR
| Wi_SURFACE_WIND_WITH_VARIABLE_SECTOR | Wi_WIND_SHEAR | Wi_WIND_SHEAR_IN_LOWER_LAYERS
| Wi_WIND_SHIFT | Wi_WIND_SHIFT_FROPA | Wi_PEAK_WIND | Wi_WSCONDS | Wi_WND_MISG.
Scheme Equality for WiType.
Inductive WiInc := WiI_NONE | WiI_PK | WiI_PK_WND | WiI_WND | WiI_WS | WiI_WS_ALL.
Scheme Equality for WiInc.
Record WindGroup := mkWind
  { wi_type : WiType; wi_dir : Direction; wi_speed : Speed; wi_gust : Speed; wi_height : Distance;
    wi_vsecBegin : Direction; wi_vsecEnd : Direction; wi_evTime : option MetafTime;
    wi_rw : option Runway; wi_inc : WiInc }.
(** 1104-1105. The default constructor (1087) leaves windType uninitialised; every function of
    the class assigns it before the object escapes. *)
Definition Wind_ofType (t : WiType) (i : WiInc) : WindGroup :=
  mkWind t Direction_default Speed_default Speed_default Distance_default Direction_default
    Direction_default None None i.
Definition Wind_setType (g : WindGroup) (t : WiType) : WindGroup :=
  mkWind t (wi_dir g) (wi_speed g) (wi_gust g) (wi_height g) (wi_vsecBegin g) (wi_vsecEnd g)
    (wi_evTime g) (wi_rw g) (wi_inc g).
Definition Wind_setInc (g : WindGroup) (i : WiInc) : WindGroup :=
  mkWind (wi_type g) (wi_dir g) (wi_speed g) (wi_gust g) (wi_height g) (wi_vsecBegin g)
    (wi_vsecEnd g) (wi_evTime g) (wi_rw g) i.
Definition Wind_setRw (g : WindGroup) (r : option Runway) : WindGroup :=
  mkWind (wi_type g) (wi_dir g) (wi_speed g) (wi_gust g) (wi_height g) (wi_vsecBegin g)
    (wi_vsecEnd g) (wi_evTime g) r (wi_inc g).
Definition Wind_setDir (g : WindGroup) (d : Direction) : WindGroup :=
  mkWind (wi_type g) d (wi_speed g) (wi_gust g) (wi_height g) (wi_vsecBegin g)
    (wi_vsecEnd g) (wi_evTime g) (wi_rw g) (wi_inc g).
Definition Wind_setSpeed (g : WindGroup) (s : Speed) : WindGroup :=
  mkWind (wi_type g) (wi_dir g) s (wi_gust g) (wi_height g) (wi_vsecBegin g)
    (wi_vsecEnd g) (wi_evTime g) (wi_rw g) (wi_inc g).
Definition Wind_setEvTime (g : WindGroup) (t : MetafTime) : WindGroup :=
  mkWind (wi_type g) (wi_dir g) (wi_speed g) (wi_gust g) (wi_height g) (wi_vsecBegin g)
    (wi_vsecEnd g) (Some t) (wi_rw g) (wi_inc g).

Definition rgx_wind : re := Eval vm_compute in                            (* 4494-4495 *)
  rx "(?:WS(\d\d\d)/)?(\d\d0|VRB|///)([1-9]?\d\d|//)(?:G([1-9]?\d\d))?([KM][TMP][HS]?)".
Definition rgx_varwind : re := Eval vm_compute in rx "(\d\d0)V(\d\d0)".   (* 4586 *)
Definition rgx_pkwnd : re := Eval vm_compute in rx "(\d\d0)([1-9]?\d\d)/(\d\d)?(\d\d)". (* 4616 *)

(** 4584-4600 *)
Definition Wind_parseVariableSector (group : string) : res (option WindGroup) :=
  match regex_match rgx_varwind group with
  | None => Ok None
  | Some m =>
    let? b := Direction_fromDegreesString (mstr m 1) in
    let? e := Direction_fromDegreesString (mstr m 2) in
    Ok (Some (mkWind Wi_VARIABLE_WIND_SECTOR Direction_default Speed_default Speed_default
                Distance_default b e None None WiI_NONE))
  end.

(** 4500-4534 *)
Definition Wind_parseSurfaceOrShear (group : string) : res (option WindGroup) :=
  match regex_match rgx_wind group with
  | None => Ok None
  | Some m =>
    match Speed_unitFromString (mstr m 5) with
    | None => Ok None
    | Some unit =>
      let? speed := Speed_fromString (mstr m 3) unit in
      if Nat.eqb (mlen m 1) 0 && Nat.eqb (mlen m 4) 0 && seqb (mstr m 2) "000"
         && seqb (mstr m 3) "00" then
        Ok (Some (mkWind Wi_SURFACE_WIND_CALM Direction_default speed Speed_default
                    Distance_default Direction_default Direction_default None None WiI_NONE))
      else
      let? dir := Direction_fromDegreesString (mstr m 2) in
      let! gust := Speed_fromString (mstr m 4) unit in
      let! wsHeight := Distance_fromHeightString (mstr m 1) in
      Ok (Some (mkWind
        (if has_value wsHeight then Wi_WIND_SHEAR else Wi_SURFACE_WIND) dir speed
        (match gust with Some g => g | None => Speed_default end)
        (match wsHeight with Some h => h | None => Distance_default end)
        Direction_default Direction_default None None WiI_NONE))
    end
  end.

(** 4469-4535 *)
Definition WindGroup_parse (group : string) (part : ReportPart) (md : ReportMetadata)
  : res (option WindGroup) :=
  let metar := is_part part RP_METAR in
  let taf := is_part part RP_TAF in
  let rmk := is_part part RP_RMK in
  if metar && seqb group "WS" then
    Ok (Some (Wind_ofType Wi_WIND_SHEAR_IN_LOWER_LAYERS WiI_WS)) else
  if taf && seqb group "WSCONDS" then Ok (Some (Wind_ofType Wi_WSCONDS WiI_NONE)) else
  if rmk && seqb group "WSHFT" then Ok (Some (Wind_ofType Wi_WIND_SHIFT WiI_NONE)) else
  if rmk && seqb group "PK" then Ok (Some (Wind_ofType Wi_PEAK_WIND WiI_PK)) else
  if rmk && seqb group "WND" then Ok (Some (Wind_ofType Wi_WND_MISG WiI_WND)) else
  if negb metar && negb taf then Ok None else
  or_else (Wind_parseVariableSector group) (Wind_parseSurfaceOrShear group).

(** 4602-4610 *)
Definition Wind_appendVariableSector (g : WindGroup) (group : string)
  : res (WindGroup * AppendResult) :=
  let! vs := Wind_parseVariableSector group in
  match vs with
  | Some v =>
    Ok (mkWind Wi_SURFACE_WIND_WITH_VARIABLE_SECTOR (wi_dir g) (wi_speed g) (wi_gust g)
          (wi_height g) (wi_vsecBegin v) (wi_vsecEnd v) (wi_evTime g) (wi_rw g) (wi_inc g),
        APPENDED)
  | None => Ok (g, NOT_APPENDED)
  end.

(** 4612-4643; the group keeps the fields assigned before a GROUP_INVALIDATED return *)
Definition Wind_appendPeakWind (g : WindGroup) (group : string) (md : ReportMetadata)
  : res (WindGroup * AppendResult) :=
  match regex_match rgx_pkwnd group with
  | None => Ok (g, GROUP_INVALIDATED)
  | Some m =>
    let g1 := Wind_setType g Wi_PEAK_WIND in
    let! dir := Direction_fromDegreesString (mstr m 1) in
    match dir with
    | None => Ok (g1, GROUP_INVALIDATED)
    | Some d =>
      let g2 := Wind_setDir g1 d in
      let! speed := Speed_fromString (mstr m 2) KNOTS in
      match speed with
      | None => Ok (g2, GROUP_INVALIDATED)
      | Some s =>
        let g3 := Wind_setSpeed g2 s in
        if negb (has_value (md_reportTime md)) && sempty (mstr m 3)
        then Ok (g3, GROUP_INVALIDATED) else
        let! hour := if sempty (mstr m 3)
                     then let! t := deref (md_reportTime md) in Ok (hourValue t)
                     else stoi (mstr m 3) in
        let! minute := stoi (mstr m 4) in
        Ok (Wind_setInc (Wind_setEvTime g3 (mkTime None hour minute)) WiI_NONE, APPENDED)
      end
    end
  end.

(** 4645-4676 *)
Definition Wind_appendWindShift (g : WindGroup) (group : string) (md : ReportMetadata)
  : res (WindGroup * AppendResult) :=
  if seqb group "FROPA" then Ok (Wind_setType g Wi_WIND_SHIFT_FROPA, APPENDED) else
  if has_value (wi_evTime g) then Ok (g, NOT_APPENDED) else
  if has_value (md_reportTime md) && Nat.eqb (slen group) 2 then
    let! t := deref (md_reportTime md) in
    let! minuteVal := strToUint group 0 2 in
    match minuteVal with
    | None => Ok (g, NOT_APPENDED)
    | Some m => Ok (Wind_setEvTime g (mkTime None (hourValue t) m), APPENDED)
    end
  else if Nat.eqb (slen group) 4 then
    let! hm := strToUint group 0 4 in
    match hm with
    | None => Ok (g, NOT_APPENDED)
    | Some v => Ok (Wind_setEvTime g (mkTime None (v / 100) (v mod 100)), APPENDED)
    end
  else Ok (g, NOT_APPENDED).

(** 4537-4582 *)
Definition WindGroup_append (g : WindGroup) (group : string) (part : ReportPart)
  (md : ReportMetadata) : res (WindGroup * AppendResult) :=
  match wi_inc g with
  | WiI_NONE =>
    match wi_type g with
    | Wi_SURFACE_WIND => Wind_appendVariableSector g group
    | Wi_WIND_SHIFT => Wind_appendWindShift g group md
    | _ => Ok (g, NOT_APPENDED)
    end
  | WiI_PK =>
    if negb (seqb group "WND") then Ok (g, GROUP_INVALIDATED)
    else Ok (Wind_setInc g WiI_PK_WND, APPENDED)
  | WiI_PK_WND => Wind_appendPeakWind g group md
  | WiI_WND =>
    if negb (seqb group "MISG") then Ok (g, GROUP_INVALIDATED)
    else Ok (Wind_setInc g WiI_NONE, APPENDED)
  | WiI_WS_ALL =>
    if negb (seqb group "RWY") then Ok (g, GROUP_INVALIDATED)
    else Ok (Wind_setRw (Wind_setInc g WiI_NONE) (Some Runway_makeAllRunways), APPENDED)
  | WiI_WS =>
    if seqb group "ALL" then Ok (Wind_setInc g WiI_WS_ALL, APPENDED) else
    let! r := Runway_fromString group true in
    match r with
    | Some rw => Ok (Wind_setRw (Wind_setInc g WiI_NONE) (Some rw), APPENDED)
    | None => Ok (g, GROUP_INVALIDATED)
    end
  end.

Definition opt_default {A : Type} (o : option A) (d : A) : A :=
  match o with Some a => a | None => d end.
(** 4678-4690 *)
Definition WindGroup_isValid (g : WindGroup) : bool :=
  if negb (WiInc_beq (wi_inc g) WiI_NONE) then false else
  if opt_default (speedValue (wi_gust g)) 1 =? 0 then false else
  if flt_is_zero (opt_default (Distance_distance (wi_height g)) (f32_of_N 1)) then false else
  if negb (Runway_isValid (opt_default (wi_rw g) Runway_default)) then false else
  if negb (MetafTime_isValid (opt_default (wi_evTime g) MetafTime_default)) then false else
  if opt_default (speedValue (wi_gust g)) 999 <=? opt_default (speedValue (wi_speed g)) 0
  then false else
  Direction_isValid (wi_dir g) && Direction_isValid (wi_vsecBegin g)
  && Direction_isValid (wi_vsecEnd g).
