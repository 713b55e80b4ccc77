(** Groups put together from words: one of the alternatives recognises the first word, the others
    are appended. *)
From Coq Require Import String List.
From Verif Require Import Prim Values Groups1 Groups4 Parser.
Import ListNotations.

(** [now]: the time of the report, if known *)
Inductive Assembled (part : ReportPart) (now : option MetafTime) : list string -> Group -> Prop :=
| Assembled_first : forall word md p g, md_reportTime md = now ->
    In p alternatives -> p word part md = Ok (Some g) -> Assembled part now [word] g
| Assembled_more : forall words word md g g', Assembled part now words g -> md_reportTime md = now ->
    Group_append g word part md = Ok (g', APPENDED) -> Assembled part now (words ++ [word]) g'.
(** No next word can make the group invalid: its text is complete or may be continued. *)
Definition settled (part : ReportPart) (g : Group) : Prop :=
  forall word md g', Group_append g word part md <> Ok (g', GROUP_INVALIDATED).

(** As [Built] of [SpecBuilt], with the time of the report known *)
Inductive Grown (part : ReportPart) (now : option MetafTime) : list string -> Group -> Prop :=
| Grown_first : forall word md g, md_reportTime md = now ->
    GroupParser_parse word part md = Ok g -> Grown part now [word] g
| Grown_again : forall word md g g', Grown part now [word] g -> md_reportTime md = now ->
    GroupParser_reparse word part md g = Ok g' -> Grown part now [word] g'
| Grown_more : forall words word md g g', Grown part now words g -> md_reportTime md = now ->
    Group_append g word part md = Ok (g', APPENDED) -> Grown part now (words ++ [word]) g'
| Grown_refused : forall words word part' md g g', Grown part now words g ->
    Group_append g word part' md = Ok (g', NOT_APPENDED) -> Grown part now words g'
| Grown_unknown : forall words, Grown part now words (GUnknown mkUnknown).
