(** Specification for C60: the report read word by word, from what the words of groups say. *)
From Coq Require Import String List Arith.
From Verif Require Import Prim Values Groups1 Groups4 Parser SpecNumeral SpecTrend SpecOpenings SpecSentence SpecWhole SpecSaid.
From Verif Require SpecVisibility.
Import ListNotations.
Local Open Scope string_scope.

(** The words continue the group. *)
Definition Continues (part : ReportPart) (now : option MetafTime) (kind : nat) (words : list string) (next : string) : Prop :=
  Opens part now kind (words ++ [next]).
(** SFC VIS or TWR VIS with a range of values; only one value is possible there. *)
Definition Wrong_range (part : ReportPart) (words : list string) (next : string) : Prop :=
  part = RP_RMK /\ exists w x a b low high, In w ["SFC"; "TWR"] /\ words = [w; "VIS"; x] /\ next = a ++ "V" ++ b
    /\ SpecVisibility.Low [x] a low /\ SpecVisibility.High b [] high.
(** Clouds on the ground: FG, FU, BLSN, BLDU and BLSA in the remarks are clouds, if these follow, else
    phenomena in the vicinity. *)
Definition cloud_kind : nat := 6.
Definition vicinity_kind : nat := 19.

(** [words], followed by [next], are one group: the most words which are its beginning. If they are its whole text,
    the group is the one they tell; otherwise they are not recognised. *)
Inductive Piece (part : ReportPart) (now : option MetafTime) : list string -> string -> Group -> Prop :=
| Piece_told : forall words next g, Said part now words g -> ~ Continues part now (Group_index g) words next ->
    ~ Wrong_range part words next -> ~ shared part (hd "" words) \/ Group_index g = cloud_kind -> Piece part now words next g
| Piece_nearby : forall word words next v, shared part word -> Said part now (word :: words) (GVicinity v) ->
    ~ Continues part now vicinity_kind (word :: words) next -> ~ Continues part now cloud_kind [word] (hd next words) ->
    Piece part now (word :: words) next (GVicinity v)
| Piece_unknown : forall word next, (forall kind, ~ Opens part now kind [word]) -> Piece part now [word] next (GUnknown mkUnknown)
| Piece_incomplete : forall kind words next, Opens part now kind words -> ~ Continues part now kind words next ->
    ~ Text part now kind words \/ Wrong_range part words next -> ~ shared part (hd "" words) ->
    Piece part now words next (GUnknown mkUnknown)
| Piece_nearby_incomplete : forall word words next, shared part word -> words <> [] -> Opens part now vicinity_kind (word :: words) ->
    ~ Continues part now vicinity_kind (word :: words) next -> ~ Continues part now cloud_kind [word] (hd next words) ->
    ~ Text part now vicinity_kind (word :: words) -> Piece part now (word :: words) next (GUnknown mkUnknown).

(** Groups one after another; [next] is the word after the last of them. *)
Inductive Pieces (type : ReportType) (part : ReportPart) (now : option MetafTime) (next : string)
  : list (list string * Group) -> Prop :=
| Pieces_end : Pieces type part now next []
| Pieces_one : forall words g items, Piece part now words (hd next (text_of items)) g -> plain_group type g ->
    Pieces type part now next items -> Pieces type part now next ((words, g) :: items)
(* FG, FU, BLSN, BLDU or BLSA when neither clouds nor a place follow: there is a group without text before the text
   which is not recognised *)
| Pieces_nothing : forall word items v, shared part word ->
    ~ Continues part now cloud_kind [word] (hd next (text_of items)) ->
    ~ Continues part now vicinity_kind [word] (hd next (text_of items)) ->
    Pieces type part now next items ->
    Pieces type part now next (([], GVicinity v) :: ([word], GUnknown mkUnknown) :: items).

(** The body and the remarks *)
Definition told (type : ReportType) (now : option MetafTime) (body : list (list string * Group))
  (remarks : option (list (list string * Group))) : Prop :=
  Pieces type (body_part type) now (hd "" (remark_words remarks)) body
  /\ match remarks with None => body <> [] | Some items => Pieces type RP_RMK now "" items end.

(** As [Report] of C59 *)
Inductive Told_report : list string -> ReportType -> option MetafTime -> list GroupInfo -> nat -> Prop :=
| Told_typed : forall type now header body remarks, Header type now header -> told type now body remarks ->
    Told_report (map fst header ++ text_of body ++ remark_words remarks) type now
      (header_groups header ++ merged (map (shown_as (body_part type)) body) ++ remark_groups type remarks)
      (length (map fst header ++ text_of body ++ remark_words remarks))
| Told_untyped : forall loc time t body remarks, location loc -> issued time t -> told RT_METAR (Some t) body remarks ->
    (forall w, hd_error (text_of body) = Some w -> w <> "NIL" /\ ~ matches "(\d\d\d\d)/(\d\d\d\d)" w) ->
    Told_report ([fst loc; fst time] ++ text_of body ++ remark_words remarks) RT_METAR (Some t)
      (header_groups [loc; time] ++ merged (map (shown_as RP_METAR) body) ++ remark_groups RT_METAR remarks)
      (S (length ([fst loc; fst time] ++ text_of body ++ remark_words remarks)))
| Told_nothing : forall type now items k word part, Nothing type now items (k, word) part ->
    Told_report (map fst items ++ [word]) type now (header_groups items ++ [mkGroupInfo (keyword k) part word])
      (length (map fst items ++ [word])).

(** The same kinds of groups with the same texts, in the same parts of the report *)
Definition alike (a b : GroupInfo) : Prop :=
  Group_index (gi_group a) = Group_index (gi_group b) /\ gi_reportPart a = gi_reportPart b /\ gi_rawString a = gi_rawString b.
