(** C11, C12, C13, C14, C15, C46: report type, report parts and the metadata of the result. *)
From Verif Require Import Prim Regex Float Values Weather Groups1 Groups2 Groups3 Groups4 Parser.
From Verif Require Import SpecTokens SpecReads SpecText SpecDecimal SpecLimit SpecGrammar SpecMeta SpecForm SpecType.
From Verif Require Import Pf_Meta2 Pf_Parts Pf_Type.
Local Open Scope string_scope.

(** ** C11 *)

(** [documented_type] is the documented rule; three groups decide, so every limit from three on is
    large enough. *)
Theorem C11_type_detected :
  forall (sgn : bool) (report : string) (groupLimit : nat) (r : ParseResult),
    (3 <= groupLimit)%nat ->
    parse sgn report groupLimit = Ok r ->
    md_type (pr_metadata r) = documented_type (report_groups sgn report).
Proof. exact type_of_report_three. Qed.
Print Assumptions C11_type_detected.
(** With smaller limits only the groups that are read decide. *)
Theorem C11_type_detected_any_limit :
  forall (sgn : bool) (report : string) (groupLimit : nat) (r : ParseResult),
    parse sgn report groupLimit = Ok r ->
    md_type (pr_metadata r) = documented_type (firstn (Nat.max 1 groupLimit) (report_groups sgn report)).
Proof. exact type_of_report. Qed.
Print Assumptions C11_type_detected_any_limit.
Theorem C11_unknown_type_without_error :
  forall (sgn : bool) (report : string) (groupLimit : nat) (r : ParseResult),
    parse sgn report groupLimit = Ok r ->
    md_error (pr_metadata r) = RE_NONE -> md_type (pr_metadata r) = RT_UNKNOWN ->
    exists location rest, report_groups sgn report = location :: rest /\ fits location_form location = true
      /\ (rest = ["NIL"] \/ exists time, rest = [time; "NIL"] /\ fits report_time_form time = true).
Proof. exact unknown_type. Qed.
Print Assumptions C11_unknown_type_without_error.

Definition type_and_error (r : res ParseResult) : option (ReportType * ReportError) :=
  match r with Ok r => Some (md_type (pr_metadata r), md_error (pr_metadata r)) | Bad _ => None end.
Example C11_nonvacuous :
  type_and_error (parse true "SPECI" 100) = Some (RT_METAR, RE_UNEXPECTED_REPORT_END)
  /\ type_and_error (parse true "ZZZZ 010000Z 0100/0124 00000KT CAVOK" 100) = Some (RT_TAF, RE_NONE)
  /\ type_and_error (parse true "ZZZZ 010000Z 00000KT CAVOK" 3) = Some (RT_METAR, RE_REPORT_TOO_LARGE)
  /\ type_and_error (parse true "ZZZZ 010000Z NIL" 100) = Some (RT_UNKNOWN, RE_NONE)
  /\ type_and_error (parse true "ZZZZ NIL" 100) = Some (RT_UNKNOWN, RE_NONE)
  /\ type_and_error (parse true "ZZZZ 010000" 100) = Some (RT_UNKNOWN, RE_EXPECTED_REPORT_TIME).
Proof. repeat split; vm_compute; reflexivity. Qed.

(** ** C12 *)

Theorem C12_parts_in_order :
  forall (sgn : bool) (report : string) (groupLimit : nat) (r : ParseResult),
    parse sgn report groupLimit = Ok r ->
    PartsInOrder (md_type (pr_metadata r)) (labels r).
Proof. exact parts_in_order. Qed.
Print Assumptions C12_parts_in_order.
Definition parts (r : res ParseResult) : list ReportPart :=
  match r with Ok r => map gi_reportPart (pr_groups r) | Bad _ => [] end.
Example C12_nonvacuous :
  parts (parse true "ZZZZ 010000Z 00000KT CAVOK RMK AO2" 100)
  = [RP_HEADER; RP_HEADER; RP_METAR; RP_METAR; RP_METAR; RP_RMK]
  /\ parts (parse true "METAR ZZZZ NIL 0100/0124" 100) = [RP_HEADER; RP_HEADER; RP_HEADER; RP_UNKNOWN].
Proof. split; vm_compute; reflexivity. Qed.

(** ** C13 *)

Theorem C13_nil_has_no_content :
  forall (sgn : bool) (report : string) (groupLimit : nat) (r : ParseResult),
    parse sgn report groupLimit = Ok r ->
    md_error (pr_metadata r) = RE_NONE -> md_isNil (pr_metadata r) = true ->
    exists l i, pr_groups r = (l ++ [i])%list /\ gi_group i = GKeyword (mkKeyword Kw_NIL)
      /\ Forall (fun j => gi_reportPart j = RP_HEADER) l.
Proof. exact nil_no_content. Qed.
Print Assumptions C13_nil_has_no_content.
Theorem C13_cancelled_has_no_content :
  forall (sgn : bool) (report : string) (groupLimit : nat) (r : ParseResult),
    parse sgn report groupLimit = Ok r ->
    md_error (pr_metadata r) = RE_NONE -> md_isCancelled (pr_metadata r) = true ->
    exists l i, pr_groups r = (l ++ [i])%list /\ gi_group i = GKeyword (mkKeyword Kw_CNL)
      /\ Forall (fun j => gi_reportPart j = RP_HEADER) l
      /\ md_type (pr_metadata r) = RT_TAF
      /\ exists j t, In j l /\ gi_group j = GTrend t /\ Trend_isTimeSpanGroup t = true.
Proof. exact cnl_no_content. Qed.
Print Assumptions C13_cancelled_has_no_content.

Definition flags (r : res ParseResult) : option (ReportError * bool * bool * nat) :=
  match r with
  | Ok r => Some (md_error (pr_metadata r), md_isNil (pr_metadata r), md_isCancelled (pr_metadata r),
      List.length (pr_groups r))
  | Bad _ => None
  end.
Example C13_nonvacuous :
  flags (parse true "METAR ZZZZ 010000Z NIL" 100) = Some (RE_NONE, true, false, 4%nat)
  /\ flags (parse true "TAF ZZZZ 010000Z 0100/0124 CNL" 100) = Some (RE_NONE, false, true, 5%nat)
  /\ flags (parse true "METAR ZZZZ 010000Z NIL CAVOK" 100)
     = Some (RE_UNEXPECTED_GROUP_AFTER_NIL, true, false, 5%nat).
Proof. repeat split; vm_compute; reflexivity. Qed.

(** ** C14 *)

Theorem C14_keyword_attributes :
  forall (sgn : bool) (report : string) (groupLimit : nat) (r : ParseResult),
    parse sgn report groupLimit = Ok r ->
    forall keyword attribute, In (keyword, attribute) keyword_attributes ->
    (attribute (pr_metadata r) = true <-> has_keyword keyword r).
Proof. exact keyword_flags. Qed.
Print Assumptions C14_keyword_attributes.
(** A keyword group is the keyword's text, in a part of the report where that is a keyword. *)
Theorem C14_keyword_groups :
  forall (sgn : bool) (report : string) (groupLimit : nat) (r : ParseResult) (i : GroupInfo) (keyword : KwType),
    parse sgn report groupLimit = Ok r ->
    In i (pr_groups r) -> gi_group i = GKeyword (mkKeyword keyword) ->
    gi_rawString i = keyword_text keyword /\ In (gi_reportPart i) (keyword_parts keyword).
Proof. exact result_keyword. Qed.
Print Assumptions C14_keyword_groups.
Theorem C14_correctional :
  forall (sgn : bool) (report : string) (groupLimit : nat) (r : ParseResult),
    parse sgn report groupLimit = Ok r ->
    (md_isCorrectional (pr_metadata r) = true <-> (has_keyword Kw_COR r \/ has_correction r)).
Proof. exact correctional. Qed.
Print Assumptions C14_correctional.
(** The number is the letter of the last CCA..CCZ. *)
Theorem C14_correction_number :
  forall (sgn : bool) (report : string) (groupLimit : nat) (r : ParseResult),
    parse sgn report groupLimit = Ok r ->
    match last_correction r with
    | Some i => exists n, (1 <= n <= 26)%nat
        /\ gi_rawString i = "CC" ++ String (Ascii.ascii_of_nat (64 + n)) ""
        /\ md_correctionNumber (pr_metadata r) = Some (N.of_nat n)
    | None => md_correctionNumber (pr_metadata r) = Some 0%N
    end.
Proof. exact correction_number. Qed.
Print Assumptions C14_correction_number.
Theorem C14_location_and_report_time :
  forall (sgn : bool) (report : string) (groupLimit : nat) (r : ParseResult),
    parse sgn report groupLimit = Ok r ->
    md_icaoLocation (pr_metadata r) = match last_saying location_text r with Some s => s | None => "" end
    /\ md_reportTime (pr_metadata r) = last_saying time_of_report r.
Proof. exact metadata_location. Qed.
Print Assumptions C14_location_and_report_time.
(** The time of a report time group is the one its text says. *)
Theorem C14_report_time_text :
  forall (sgn : bool) (report : string) (groupLimit : nat) (r : ParseResult) (i : GroupInfo) (t : ReportTimeGroup),
    parse sgn report groupLimit = Ok r ->
    In i (pr_groups r) -> gi_group i = GReportTime t ->
    gi_reportPart i = RP_HEADER /\ fits report_time_form (gi_rawString i) = true
    /\ exists day hour minute, rt_t t = mkTime (Some day) hour minute
       /\ decimal (substring 0 2 (gi_rawString i)) = Some day
       /\ decimal (substring 2 2 (gi_rawString i)) = Some hour
       /\ decimal (substring 4 2 (gi_rawString i)) = Some minute.
Proof. exact result_report_time. Qed.
Print Assumptions C14_report_time_text.

Definition some_metadata (r : res ParseResult) :=
  match r with
  | Ok r => let md := pr_metadata r in
      Some (md_icaoLocation md, md_reportTime md, md_isSpeci md, md_isAutomated md, md_isAo2 md,
        md_isCorrectional md, md_correctionNumber md, md_maintenanceIndicator md)
  | Bad _ => None
  end.
Example C14_nonvacuous :
  some_metadata (parse true "SPECI ZZZZ 031245Z AUTO CCB 00000KT RMK AO2 $" 100)
  = Some ("ZZZZ", Some (mkTime (Some 3) 12 45), true, true, true, true, Some 2, true)%N.
Proof. vm_compute; reflexivity. Qed.

(** ** C15 *)

(** As documented, a METAR would have no time span. The code sets it from a group of the body. *)
Theorem C15_metar_time_span_refuted :
  ~ (forall (sgn : bool) (report : string) (groupLimit : nat) (r : ParseResult),
      parse sgn report groupLimit = Ok r ->
      md_error (pr_metadata r) = RE_NONE -> md_type (pr_metadata r) = RT_METAR ->
      md_timeSpanFrom (pr_metadata r) = None /\ md_timeSpanUntil (pr_metadata r) = None).
Proof. exact metar_span_refuted. Qed.
Print Assumptions C15_metar_time_span_refuted.
Example C15_metar_time_span_witness :
  match parse true "METAR ZZZZ 010000Z 0100/0124" 100 with
  | Ok r => Some (md_type (pr_metadata r), md_error (pr_metadata r), md_timeSpanFrom (pr_metadata r),
      md_timeSpanUntil (pr_metadata r))
  | Bad _ => None
  end = Some (RT_METAR, RE_NONE, Some (mkTime None 1 0), Some (mkTime None 1 24))%N.
Proof. vm_compute; reflexivity. Qed.
(** For a METAR the time span is empty if no group of the report is a plain time span. *)
Theorem C15_time_span_of_first_group_partial :
  forall (sgn : bool) (report : string) (groupLimit : nat) (r : ParseResult),
    parse sgn report groupLimit = Ok r ->
    (md_timeSpanFrom (pr_metadata r), md_timeSpanUntil (pr_metadata r))
    = match first_saying span_of r with Some x => x | None => (None, None) end.
Proof. exact metadata_span. Qed.
Print Assumptions C15_time_span_of_first_group_partial.
(** The TAF half: present, and the time span which is the last group of the header. *)
Theorem C15_taf_time_span :
  forall (sgn : bool) (report : string) (groupLimit : nat) (r : ParseResult),
    parse sgn report groupLimit = Ok r ->
    md_error (pr_metadata r) = RE_NONE -> md_type (pr_metadata r) = RT_TAF -> md_isNil (pr_metadata r) = false ->
    exists h i m t from until, pr_groups r = (h ++ i :: m)%list
      /\ Forall (fun j => gi_reportPart j = RP_HEADER) (h ++ [i])%list
      /\ Forall (fun j => gi_reportPart j <> RP_HEADER) m
      /\ gi_group i = GTrend t /\ tr_t t = Tr_TIME_SPAN /\ tr_from t = Some from /\ tr_till t = Some until
      /\ md_timeSpanFrom (pr_metadata r) = Some from /\ md_timeSpanUntil (pr_metadata r) = Some until.
Proof. exact taf_header_span. Qed.
Print Assumptions C15_taf_time_span.
Theorem C15_header_time_span_text :
  forall (sgn : bool) (report : string) (groupLimit : nat) (r : ParseResult) (i : GroupInfo) (t : TrendGroup),
    parse sgn report groupLimit = Ok r ->
    In i (pr_groups r) -> gi_group i = GTrend t -> Trend_isTimeSpanGroup t = true -> gi_reportPart i = RP_HEADER ->
    fits time_span_form (gi_rawString i) = true
    /\ exists d h d' h', tr_from t = Some (mkTime (Some d) h 0) /\ tr_till t = Some (mkTime (Some d') h' 0)
       /\ decimal (substring 0 2 (gi_rawString i)) = Some d /\ decimal (substring 2 2 (gi_rawString i)) = Some h
       /\ decimal (substring 5 2 (gi_rawString i)) = Some d' /\ decimal (substring 7 2 (gi_rawString i)) = Some h'.
Proof. exact result_header_span. Qed.
Print Assumptions C15_header_time_span_text.
Example C15_nonvacuous :
  match parse true "TAF ZZZZ 010000Z 0106/0212 00000KT CAVOK BECMG 0110/0112 9999" 100 with
  | Ok r => Some (md_type (pr_metadata r), md_error (pr_metadata r), md_timeSpanFrom (pr_metadata r),
      md_timeSpanUntil (pr_metadata r))
  | Bad _ => None
  end = Some (RT_TAF, RE_NONE, Some (mkTime (Some 1) 6 0), Some (mkTime (Some 2) 12 0))%N.
Proof. vm_compute; reflexivity. Qed.

(** ** C46 *)

Theorem C46_location_recognised :
  forall (s : string) (part : ReportPart) (md : ReportMetadata) (l : LocationGroup),
    GroupParser_parse s part md = Ok (GLocation l)
    <-> (part = RP_HEADER /\ fits location_form s = true /\ LocationGroup_toString l = s).
Proof. exact location_dispatch. Qed.
Print Assumptions C46_location_recognised.
Theorem C46_location_groups :
  forall (sgn : bool) (report : string) (groupLimit : nat) (r : ParseResult) (i : GroupInfo) (l : LocationGroup),
    parse sgn report groupLimit = Ok r ->
    In i (pr_groups r) -> gi_group i = GLocation l ->
    gi_reportPart i = RP_HEADER /\ fits location_form (gi_rawString i) = true
    /\ LocationGroup_toString l = gi_rawString i.
Proof. exact result_location. Qed.
Print Assumptions C46_location_groups.
Example C46_nonvacuous :
  GroupParser_parse "K1A2" RP_HEADER md_default = Ok (GLocation (mkLocation "K1A2"))
  /\ GroupParser_parse "1AAA" RP_HEADER md_default = Ok (GUnknown mkUnknown)
  /\ GroupParser_parse "ZZZZ" RP_METAR md_default = Ok (GUnknown mkUnknown).
Proof. repeat split; vm_compute; reflexivity. Qed.
