(** Specification for C56: a report read group by group. *)
From Coq Require Import String List Arith.
From Verif Require Import Prim Values Groups1 Groups4 Parser SpecNumeral SpecTrend SpecAssembled SpecOpenings.
Import ListNotations.
Local Open Scope string_scope.

(** What the word [next] which follows the text of a group does to it; the empty word stands for the
    end of the report. *)
Definition refuses (part : ReportPart) (now : option MetafTime) (g : Group) (next : string) (g' : Group) : Prop :=
  forall md, md_reportTime md = now -> Group_append g next part md = Ok (g', NOT_APPENDED).
Definition spoils (part : ReportPart) (now : option MetafTime) (g : Group) (next : string) : Prop :=
  forall md, md_reportTime md = now -> exists g', Group_append g next part md = Ok (g', GROUP_INVALIDATED).
(** No kind of group begins with the word. *)
Definition unread (part : ReportPart) (now : option MetafTime) (word : string) : Prop :=
  forall p md, In p alternatives -> md_reportTime md = now -> p word part md = Ok None.

(** [words], followed by [next], are one group. *)
Inductive Item (part : ReportPart) (now : option MetafTime) : list string -> string -> Group -> Prop :=
(* the text of a group, which the next word does not continue; [g'] is [g] which expects no more words *)
| Item_read : forall words next g g', Assembled part now words g ->
    ~ shared part (hd "" words) \/ (exists c, g = GCloud c) ->
    refuses part now g next g' -> Item part now words next g'
(* FG, FU, BLSN, BLDU or BLSA in the remarks, when no layer follows *)
| Item_nearby : forall word words next v v' c, shared part word ->
    Assembled part now (word :: words) (GVicinity v) ->
    Assembled part now [word] (GCloud c) -> spoils part now (GCloud c) (hd next words) ->
    refuses part now (GVicinity v) next (GVicinity v') -> Item part now (word :: words) next (GVicinity v')
(* the same, when the group is incomplete and the next word does not complete it *)
| Item_nearby_spoiled : forall word words next v c, shared part word -> words <> [] ->
    Assembled part now (word :: words) (GVicinity v) ->
    Assembled part now [word] (GCloud c) -> spoils part now (GCloud c) (hd next words) ->
    spoils part now (GVicinity v) next -> Item part now (word :: words) next (GUnknown mkUnknown)
(* not the text of any group *)
| Item_unread : forall word next, unread part now word -> Item part now [word] next (GUnknown mkUnknown)
(* an incomplete group, which the next word does not complete *)
| Item_spoiled : forall words next g, Assembled part now words g -> ~ shared part (hd "" words) ->
    spoils part now g next -> Item part now words next (GUnknown mkUnknown).

(** The keywords which end the report or its body, and $, which METAR reports only have *)
Definition plain_group (type : ReportType) (g : Group) : Prop :=
  forall k, g = GKeyword k -> ~ In (kw_t k) [Kw_NIL; Kw_CNL; Kw_RMK]
    /\ (kw_t k = Kw_MAINTENANCE_INDICATOR -> type = RT_METAR).

Definition text_of (items : list (list string * Group)) : list string := List.concat (map fst items).
(** Groups one after another; [next] is the word after the last of them. *)
Inductive Sentence (type : ReportType) (part : ReportPart) (now : option MetafTime) (next : string)
  : list (list string * Group) -> Prop :=
| Sentence_end : Sentence type part now next []
| Sentence_item : forall words g items, Item part now words (hd next (text_of items)) g -> plain_group type g ->
    Sentence type part now next items -> Sentence type part now next ((words, g) :: items)
(* FG, FU, BLSN, BLDU or BLSA when neither a layer nor a place follows: there is a group without text
   before the text which is not recognised *)
| Sentence_nothing : forall word items v c, shared part word ->
    Assembled part now [word] (GVicinity v) -> Assembled part now [word] (GCloud c) ->
    spoils part now (GCloud c) (hd next (text_of items)) -> spoils part now (GVicinity v) (hd next (text_of items)) ->
    Sentence type part now next items ->
    Sentence type part now next (([], GVicinity v) :: ([word], GUnknown mkUnknown) :: items).

(** The groups of the result: pieces of text which were not recognised make up one group when they
    are adjacent. *)
Definition shown_as (part : ReportPart) (item : list string * Group) : GroupInfo :=
  mkGroupInfo (snd item) part (String.concat " " (fst item)).
Fixpoint merged (l : list GroupInfo) : list GroupInfo :=
  match l with
  | [] => []
  | a :: l' =>
    match gi_group a, merged l' with
    | GUnknown _, mkGroupInfo (GUnknown u) part raw :: rest =>
      mkGroupInfo (GUnknown u) (gi_reportPart a) (gi_rawString a ++ " " ++ raw) :: rest
    | _, rest => a :: rest
    end
  end.

(** The words before the body of the report: its type, whether it is corrected or amended, the location,
    the time of the report, the time span of the forecast *)
Definition keyword (k : KwType) : Group := GKeyword (mkKeyword k).
Definition type_word (type : ReportType) (word : string) (k : KwType) : Prop :=
  type = RT_METAR /\ In (word, k) [("METAR", Kw_METAR); ("SPECI", Kw_SPECI)]
  \/ type = RT_TAF /\ word = "TAF" /\ k = Kw_TAF.
Definition correction (type : ReportType) (items : list (string * Group)) : Prop :=
  items = [] \/ items = [("COR", keyword Kw_COR)] \/ type = RT_TAF /\ items = [("AMD", keyword Kw_AMD)].
Definition location (item : string * Group) : Prop :=
  matches "[A-Z][A-Z0-9]{3}" (fst item) /\ snd item = GLocation (mkLocation (fst item)).
Definition issued (item : string * Group) (t : MetafTime) : Prop :=
  exists s, fst item = s ++ "Z" /\ day_hour_minute s t /\ snd item = GReportTime (mkReportTime t).
Definition forecast_span (item : string * Group) : Prop :=
  exists a b f u, fst item = a ++ "/" ++ b /\ day_hour a f /\ day_hour b u
    /\ snd item = GTrend (mkTrend Tr_TIME_SPAN Pr_NONE true (Some f) (Some u) None).
Inductive Header : ReportType -> option MetafTime -> list (string * Group) -> Prop :=
| Header_metar : forall word k items loc time t, type_word RT_METAR word k -> correction RT_METAR items ->
    location loc -> issued time t ->
    Header RT_METAR (Some t) (((word, keyword k) :: items) ++ [loc; time])
| Header_taf : forall word k items loc time t span, type_word RT_TAF word k -> correction RT_TAF items ->
    location loc -> issued time t -> forecast_span span ->
    Header RT_TAF (Some t) (((word, keyword k) :: items) ++ [loc; time; span])
| Header_taf_no_time : forall word k items loc span, type_word RT_TAF word k -> correction RT_TAF items ->
    location loc -> forecast_span span ->
    Header RT_TAF None (((word, keyword k) :: items) ++ [loc; span])
| Header_taf_no_type : forall loc time t span, location loc -> issued time t -> forecast_span span ->
    Header RT_TAF (Some t) [loc; time; span].

Definition header_groups (items : list (string * Group)) : list GroupInfo :=
  map (fun item => mkGroupInfo (snd item) RP_HEADER (fst item)) items.

Definition body_part (type : ReportType) : ReportPart :=
  match type with RT_METAR => RP_METAR | RT_TAF => RP_TAF | RT_UNKNOWN => RP_UNKNOWN end.

(** What follows the header: the body and, after RMK, the remarks *)
Definition remark_words (remarks : option (list (list string * Group))) : list string :=
  match remarks with None => [] | Some items => "RMK" :: text_of items end.
Definition remark_groups (type : ReportType) (remarks : option (list (list string * Group))) : list GroupInfo :=
  match remarks with
  | None => []
  | Some items => mkGroupInfo (keyword Kw_RMK) (body_part type) "RMK" :: merged (map (shown_as RP_RMK) items)
  end.
Definition well_formed (type : ReportType) (now : option MetafTime) (body : list (list string * Group))
  (remarks : option (list (list string * Group))) : Prop :=
  Sentence type (body_part type) now (hd "" (remark_words remarks)) body
  /\ match remarks with None => body <> [] | Some items => Sentence type RP_RMK now "" items end.

(** The result: [now] is the time of the report, if it has one. *)
Definition read_as (r : ParseResult) (type : ReportType) (now : option MetafTime) (groups : list GroupInfo) : Prop :=
  pr_groups r = groups /\ md_type (pr_metadata r) = type /\ md_error (pr_metadata r) = RE_NONE
  /\ md_reportTime (pr_metadata r) = now.
