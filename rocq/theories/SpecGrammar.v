(** Specification for C09, C10, C12, C13: the grammar of METAR and TAF reports (the syntax diagrams
    metar.svg, taf.svg, metar_nil.svg, taf_nil_cnl.svg and unknown_nil.svg of api_parser.rst), in terms
    of the groups of the result. *)
From Verif Require Import Prim Values Weather Groups1 Groups2 Groups3 Groups4 Parser.

(** What a group is to the grammar, and the report part it is labelled with *)
Definition syntax_of (g : Group) : SyntaxGroup :=
  match g with
  | GLocation _ => SG_LOCATION
  | GReportTime _ => SG_REPORT_TIME
  | GTrend t => if Trend_isTimeSpanGroup t then SG_TIME_SPAN else SG_OTHER
  | GKeyword k =>
    match kw_t k with
    | Kw_METAR => SG_METAR
    | Kw_SPECI => SG_SPECI
    | Kw_TAF => SG_TAF
    | Kw_COR => SG_COR
    | Kw_AMD => SG_AMD
    | Kw_NIL => SG_NIL
    | Kw_CNL => SG_CNL
    | Kw_RMK => SG_RMK
    | Kw_MAINTENANCE_INDICATOR => SG_MAINTENANCE_INDICATOR
    | Kw_AUTO | Kw_CAVOK | Kw_AO1 | Kw_AO2 | Kw_AO1A | Kw_AO2A | Kw_NOSPECI => SG_OTHER
    end
  | _ => SG_OTHER
  end.
Definition label : Type := ReportPart * SyntaxGroup.
Definition label_of (i : GroupInfo) : label := (gi_reportPart i, syntax_of (gi_group i)).
Definition labels (r : ParseResult) : list label := map label_of (pr_groups r).

Definition head (x : SyntaxGroup) : label := (RP_HEADER, x).
(** All labels are of the given part, and none of the excluded groups occurs. *)
Definition part_without (p : ReportPart) (excluded : list SyntaxGroup) (l : list label) : Prop :=
  Forall (fun x => fst x = p /\ ~ In (snd x) excluded) l.

(** The remarks: none, or RMK and whatever follows it *)
Inductive Remarks (body : ReportPart) (excluded : list SyntaxGroup) : list label -> Prop :=
| Remarks_none : Remarks body excluded []
| Remarks_some : forall l, part_without RP_RMK excluded l -> Remarks body excluded ((body, SG_RMK) :: l).

(** What follows the header of a METAR: NIL, or a body and remarks that are not both missing *)
Inductive MetarContent : list label -> Prop :=
| Metar_nil : MetarContent [(RP_METAR, SG_NIL)]
| Metar_body : forall b m, part_without RP_METAR [SG_NIL; SG_CNL; SG_RMK] b -> Remarks RP_METAR [] m ->
    (b ++ m <> [])%list -> MetarContent (b ++ m)%list.
Inductive TafContent : list label -> Prop :=
| Taf_nil : TafContent [(RP_TAF, SG_NIL)]
| Taf_cnl : TafContent [(RP_TAF, SG_CNL)]
| Taf_body : forall b m, part_without RP_TAF [SG_NIL; SG_CNL; SG_RMK; SG_MAINTENANCE_INDICATOR] b ->
    Remarks RP_TAF [SG_MAINTENANCE_INDICATOR] m ->
    (b ++ m <> [])%list -> TafContent (b ++ m)%list.

(** What follows the location *)
Inductive AfterLocation : ReportType -> bool -> list label -> Prop :=
  (** METAR or SPECI was given *)
| After_metar_nil : AfterLocation RT_METAR true [head SG_NIL]
| After_metar : forall l, MetarContent l -> AfterLocation RT_METAR true (head SG_REPORT_TIME :: l)
  (** TAF was given *)
| After_taf_nil : AfterLocation RT_TAF true [head SG_NIL]
| After_taf_time_nil : AfterLocation RT_TAF true [head SG_REPORT_TIME; head SG_NIL]
| After_taf : forall l, TafContent l ->
    AfterLocation RT_TAF true (head SG_REPORT_TIME :: head SG_TIME_SPAN :: l)
| After_taf_no_time : forall l, TafContent l -> AfterLocation RT_TAF true (head SG_TIME_SPAN :: l)
  (** no type was given *)
| After_none_nil : AfterLocation RT_UNKNOWN false [head SG_NIL]
| After_none_time_nil : AfterLocation RT_UNKNOWN false [head SG_REPORT_TIME; head SG_NIL]
| After_none_metar : forall l, MetarContent l -> AfterLocation RT_METAR false (head SG_REPORT_TIME :: l)
| After_none_taf : forall l, TafContent l ->
    AfterLocation RT_TAF false (head SG_REPORT_TIME :: head SG_TIME_SPAN :: l).

Inductive ReportTypeOf : ReportType -> list label -> Prop :=
| Type_metar : ReportTypeOf RT_METAR [head SG_METAR]
| Type_speci : ReportTypeOf RT_METAR [head SG_SPECI]
| Type_metar_cor : ReportTypeOf RT_METAR [head SG_METAR; head SG_COR]
| Type_speci_cor : ReportTypeOf RT_METAR [head SG_SPECI; head SG_COR]
| Type_taf : ReportTypeOf RT_TAF [head SG_TAF]
| Type_taf_cor : ReportTypeOf RT_TAF [head SG_TAF; head SG_COR]
| Type_taf_amd : ReportTypeOf RT_TAF [head SG_TAF; head SG_AMD].

(** A well-formed report of the given type *)
Inductive WellFormed : ReportType -> list label -> Prop :=
| Wf_typed : forall t h l, ReportTypeOf t h -> AfterLocation t true l ->
    WellFormed t (h ++ head SG_LOCATION :: l)%list
| Wf_untyped : forall t l, AfterLocation t false l -> WellFormed t (head SG_LOCATION :: l).

(** A beginning of a well-formed report *)
Definition Viable (l : list label) : Prop := exists t m, WellFormed t (l ++ m)%list.

(** The error that label [x] is after the beginning [l] of a report *)
Definition ErrorAt (l : list label) (x : label) (e : ReportError) : Prop :=
  match e with
  | RE_EXPECTED_REPORT_TYPE_OR_LOCATION => l = []
  | RE_EXPECTED_LOCATION => (exists t, ReportTypeOf t l)
      /\ ~ (snd x = SG_AMD /\ (l = [head SG_METAR] \/ l = [head SG_SPECI]))
  | RE_AMD_ALLOWED_IN_TAF_ONLY => snd x = SG_AMD /\ (l = [head SG_METAR] \/ l = [head SG_SPECI])
  | RE_EXPECTED_REPORT_TIME => exists h, l = (h ++ [head SG_LOCATION])%list
  | RE_EXPECTED_TIME_SPAN =>
    exists h, ReportTypeOf RT_TAF h /\ l = (h ++ [head SG_LOCATION; head SG_REPORT_TIME])%list
  | RE_CNL_ALLOWED_IN_TAF_ONLY =>
    x = (RP_METAR, SG_CNL) /\ exists h, l = (h ++ [head SG_LOCATION; head SG_REPORT_TIME])%list
  | RE_UNEXPECTED_NIL_OR_CNL_IN_REPORT_BODY =>
    (snd x = SG_NIL \/ snd x = SG_CNL) /\ (fst x = RP_METAR \/ fst x = RP_TAF)
    /\ exists l' g, l = (l' ++ [(fst x, g)])%list
  | RE_MAINTENANCE_INDICATOR_ALLOWED_IN_METAR_ONLY =>
    snd x = SG_MAINTENANCE_INDICATOR /\ (fst x = RP_TAF \/ fst x = RP_RMK) /\ In (head SG_TIME_SPAN) l
  | RE_UNEXPECTED_GROUP_AFTER_NIL =>
    fst x = RP_UNKNOWN /\ exists l' p, l = (l' ++ [(p, SG_NIL)])%list
  | RE_UNEXPECTED_GROUP_AFTER_CNL =>
    fst x = RP_UNKNOWN /\ exists l', l = (l' ++ [(RP_TAF, SG_CNL)])%list
  | _ => False
  end.

(** C12: the parts of a report of type [t] in order. Groups of part UNKNOWN only occur as an error
    after NIL or CNL. *)
Definition all_part (p : ReportPart) (l : list label) : Prop := Forall (fun x => fst x = p) l.
Definition PartsInOrder (t : ReportType) (l : list label) : Prop :=
  exists h b m u, l = (h ++ b ++ m ++ u)%list
    /\ all_part RP_HEADER h
    /\ (b = [] \/ (all_part RP_METAR b /\ t = RT_METAR) \/ (all_part RP_TAF b /\ t = RT_TAF))
    /\ all_part RP_RMK m /\ all_part RP_UNKNOWN u /\ (m = [] \/ u = [])
    /\ (m <> [] -> exists b' p, b = (b' ++ [(p, SG_RMK)])%list)
    /\ (forall b1 p b2, b = (b1 ++ (p, SG_RMK) :: b2)%list -> b2 = []).
