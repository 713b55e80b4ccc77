(** Specification for C88: reports with a word added which is not understood. *)
From Coq Require Import String List.
From Verif Require Import Prim Values Weather Groups1 Groups2 Groups3 Groups4 Parser SpecTokens SpecText SpecSentence SpecForeign.
Import ListNotations.
Local Open Scope string_scope.

(** [report'] is [report] with the word [w] added between the groups [before] and [after]; the report has no error, also if one group
    less than usual is allowed. *)
Definition with_word (sgn : bool) (report report' w : string) (before after : list GroupInfo) : Prop :=
  exists r, parse sgn report (default_groupLimit - 1) = Ok r /\ md_error (pr_metadata r) = RE_NONE
    /\ pr_groups r = (before ++ after)%list /\ place before after
    /\ report_groups sgn report' = (words_in before ++ w :: words_in after)%list.
Definition stray (sgn : bool) (report report' : string) : Prop :=
  exists w before after, foreign w /\ with_word sgn report report' w before after.
(** No unknown words beside it *)
Definition alone (before after : list GroupInfo) : Prop :=
  (forall l i, before = (l ++ [i])%list -> is_unknown i = false) /\ (forall l i, after = i :: l -> is_unknown i = false).
