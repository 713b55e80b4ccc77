(** Specification for C14, C15: the metadata attributes in terms of the groups of the result. *)
From Verif Require Import Prim Float Values Weather Groups1 Groups2 Groups3 Groups4 Parser.
Local Open Scope string_scope.

(** The keyword is one of the groups. *)
Definition has_keyword (k : KwType) (r : ParseResult) : Prop :=
  exists i, In i (pr_groups r) /\ gi_group i = GKeyword (mkKeyword k).
Definition has_correction (r : ParseResult) : Prop :=
  exists i m, In i (pr_groups r) /\ gi_group i = GMisc m /\ ms_type m = Ms_CORRECTED_WEATHER_OBSERVATION.

(** The attributes that stand for a keyword *)
Definition keyword_attributes : list (KwType * (ReportMetadata -> bool)) :=
  [(Kw_SPECI, md_isSpeci); (Kw_NOSPECI, md_isNospeci); (Kw_AUTO, md_isAutomated); (Kw_AO1, md_isAo1);
   (Kw_AO1A, md_isAo1a); (Kw_AO2, md_isAo2); (Kw_AO2A, md_isAo2a); (Kw_NIL, md_isNil);
   (Kw_CNL, md_isCancelled); (Kw_AMD, md_isAmended); (Kw_MAINTENANCE_INDICATOR, md_maintenanceIndicator)].

(** What the last (the first) group with an answer says *)
Definition last_saying {A : Type} (f : Group -> option A) (r : ParseResult) : option A :=
  fold_left (fun acc i => match f (gi_group i) with Some x => Some x | None => acc end) (pr_groups r) None.
Definition first_saying {A : Type} (f : Group -> option A) (r : ParseResult) : option A :=
  fold_right (fun i acc => match f (gi_group i) with Some x => Some x | None => acc end) None (pr_groups r).

Definition location_text (g : Group) : option string :=
  match g with GLocation l => Some (LocationGroup_toString l) | _ => None end.
Definition time_of_report (g : Group) : option MetafTime :=
  match g with GReportTime t => Some (rt_t t) | _ => None end.
(** The number in a group CCA..CCZ *)
Definition correction_of (g : Group) : option spec_float :=
  match g with
  | GMisc m => if MsType_beq (ms_type m) Ms_CORRECTED_WEATHER_OBSERVATION then ms_data m else None
  | _ => None
  end.
(** A plain time span, not a time trend or a probability with a time span *)
Definition span_of (g : Group) : option (option MetafTime * option MetafTime) :=
  match g with
  | GTrend t => if Trend_isTimeSpanGroup t then Some (tr_from t, tr_till t) else None
  | _ => None
  end.

(** The last group CCA..CCZ *)
Definition is_correction (i : GroupInfo) : bool :=
  match gi_group i with GMisc m => MsType_beq (ms_type m) Ms_CORRECTED_WEATHER_OBSERVATION | _ => false end.
Definition last_correction (r : ParseResult) : option GroupInfo := find is_correction (rev (pr_groups r)).

(** The text of each keyword *)
Definition keyword_text (k : KwType) : string :=
  match k with
  | Kw_METAR => "METAR" | Kw_SPECI => "SPECI" | Kw_TAF => "TAF" | Kw_AMD => "AMD" | Kw_NIL => "NIL"
  | Kw_CNL => "CNL" | Kw_COR => "COR" | Kw_AUTO => "AUTO" | Kw_CAVOK => "CAVOK" | Kw_RMK => "RMK"
  | Kw_MAINTENANCE_INDICATOR => "$" | Kw_AO1 => "AO1" | Kw_AO2 => "AO2" | Kw_AO1A => "AO1A"
  | Kw_AO2A => "AO2A" | Kw_NOSPECI => "NOSPECI"
  end.
(** The report parts where it is a keyword *)
Definition keyword_parts (k : KwType) : list ReportPart :=
  match k with
  | Kw_METAR | Kw_SPECI | Kw_TAF | Kw_AMD => [RP_HEADER]
  | Kw_NIL => [RP_HEADER; RP_METAR; RP_TAF]
  | Kw_CNL => [RP_HEADER; RP_METAR; RP_TAF]
  | Kw_COR => [RP_HEADER; RP_METAR]
  | Kw_AUTO => [RP_METAR]
  | Kw_CAVOK => [RP_METAR; RP_TAF]
  | Kw_RMK => [RP_METAR; RP_TAF]
  | Kw_MAINTENANCE_INDICATOR => [RP_UNKNOWN; RP_HEADER; RP_METAR; RP_TAF; RP_RMK]
  | Kw_AO1 | Kw_AO2 | Kw_AO1A | Kw_AO2A | Kw_NOSPECI => [RP_RMK]
  end.
