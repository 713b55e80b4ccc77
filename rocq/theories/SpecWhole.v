(** Specification for C59: the reports which are read without error. *)
From Coq Require Import String List Arith.
From Verif Require Import Prim Values Groups1 Groups4 Parser SpecNumeral SpecTrend SpecAssembled SpecOpenings SpecSentence.
Import ListNotations.
Local Open Scope string_scope.

(** The type of the report and whether it is corrected or amended, or none of these *)
Inductive Opening : ReportType -> list (string * Group) -> Prop :=
| Opening_type : forall type word k items, type_word type word k -> correction type items ->
    Opening type ((word, keyword k) :: items)
| Opening_none : Opening RT_UNKNOWN [].

(** Reports which end with NIL, or with CNL: what is before, and the part of the report the last word
    belongs to *)
Inductive Nothing : ReportType -> option MetafTime -> list (string * Group) -> KwType * string -> ReportPart -> Prop :=
| Nil_location : forall type items loc, Opening type items -> location loc ->
    Nothing type None (items ++ [loc]) (Kw_NIL, "NIL") RP_HEADER
| Nil_time : forall type items loc time t, Opening type items -> type <> RT_METAR -> location loc -> issued time t ->
    Nothing type (Some t) (items ++ [loc; time]) (Kw_NIL, "NIL") RP_HEADER
| Nil_header : forall type now header, Header type now header ->
    Nothing type now header (Kw_NIL, "NIL") (body_part type)
| Cnl_header : forall now header, Header RT_TAF now header ->
    Nothing RT_TAF now header (Kw_CNL, "CNL") RP_TAF.

(** [Report words type now groups n]: the report with these words is of this type, its time is [now], and it
    consists of these groups; [n] is how many words are counted towards the limit. *)
Inductive Report : list string -> ReportType -> option MetafTime -> list GroupInfo -> nat -> Prop :=
| Report_typed : forall type now header body remarks, Header type now header -> well_formed type now body remarks ->
    Report (map fst header ++ text_of body ++ remark_words remarks) type now
      (header_groups header ++ merged (map (shown_as (body_part type)) body) ++ remark_groups type remarks)
      (length (map fst header ++ text_of body ++ remark_words remarks))
| Report_untyped : forall loc time t body remarks, location loc -> issued time t -> well_formed RT_METAR (Some t) body remarks ->
    (forall w, hd_error (text_of body) = Some w -> w <> "NIL" /\ ~ matches "(\d\d\d\d)/(\d\d\d\d)" w) ->
    Report ([fst loc; fst time] ++ text_of body ++ remark_words remarks) RT_METAR (Some t)
      (header_groups [loc; time] ++ merged (map (shown_as RP_METAR) body) ++ remark_groups RT_METAR remarks)
      (S (length ([fst loc; fst time] ++ text_of body ++ remark_words remarks)))
| Report_nothing : forall type now items k word part, Nothing type now items (k, word) part ->
    Report (map fst items ++ [word]) type now (header_groups items ++ [mkGroupInfo (keyword k) part word])
      (length (map fst items ++ [word])).
