(** How a group of the result comes from words of the report. *)
From Coq Require Import String List.
From Verif Require Import Prim Values Groups1 Groups4 Parser.
Import ListNotations.

(** [Built part words g]: in the part [part] of the report, the first of the words was recognised as
    a group; if a group turned out to be something else when the next word came, the word was
    looked at again; each other word was appended to the group, and [g] is the outcome. *)
Inductive Built (part : ReportPart) : list string -> Group -> Prop :=
| Built_first : forall word md g, GroupParser_parse word part md = Ok g -> Built part [word] g
| Built_again : forall word md g g', Built part [word] g ->
    GroupParser_reparse word part md g = Ok g' -> Built part [word] g'
| Built_more : forall words word md g g', Built part words g ->
    Group_append g word part md = Ok (g', APPENDED) -> Built part (words ++ [word]) g'
| Built_refused : forall words word part' md g g', Built part words g ->
    Group_append g word part' md = Ok (g', NOT_APPENDED) -> Built part words g'
| Built_unknown : forall words, Built part words (GUnknown mkUnknown).
