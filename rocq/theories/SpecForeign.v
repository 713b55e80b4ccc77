(** Specification for C81: what a word which is not understood does to the rest of the report. *)
From Coq Require Import String List.
From Verif Require Import Prim Values Weather Groups1 Groups2 Groups3 Groups4 Parser SpecText SpecAlphabet SpecSentence.
Import ListNotations.
Local Open Scope string_scope.

(** A word with a character which does not occur in METAR and TAF reports; see C78 for words which begin with LTG. *)
Definition foreign (w : string) : Prop := ~ metar_word w /\ ~ lightning_word w.
(** The words of some groups of the result *)
Definition words_in (groups : list GroupInfo) : list string := flat_map (fun i => words_of (gi_rawString i)) groups.
(** What stands after [before] is in the remarks, or in the body of the report. *)
Definition is_remarks (i : GroupInfo) : bool :=
  match gi_group i with GKeyword k => match kw_t k with Kw_RMK => true | _ => false end | _ => false end.
Definition part_after (type : ReportType) (before : list GroupInfo) : ReportPart :=
  if existsb is_remarks before then RP_RMK else body_part type.
(** The report says that there is no report, or that the forecast is cancelled. *)
Definition is_nothing (i : GroupInfo) : Prop :=
  match gi_group i with GKeyword k => kw_t k = Kw_NIL \/ kw_t k = Kw_CNL | _ => False end.
(** A place between groups: after the header, and not within the two groups which FG, FU, BLSN, BLDU or BLSA
    make up when neither a layer nor a place follows. *)
Definition place (before after : list GroupInfo) : Prop :=
  (forall i, In i after -> gi_reportPart i <> RP_HEADER)
  /\ (forall i, In i (before ++ after) -> ~ is_nothing i)
  /\ (forall l i, before = (l ++ [i])%list -> gi_rawString i <> "").
