(** Specification for C74 and C75: the texts of the groups of a result, and results which begin alike. *)
From Coq Require Import List String.
From Verif Require Import Prim Values Weather Groups1 Groups2 Groups3 Groups4 Parser SpecText.
Import ListNotations.
Local Open Scope string_scope.

(** The texts of the groups, in order, with a space between them *)
Definition texts (r : ParseResult) : string := join_words (map gi_rawString (pr_groups r)).

(** The groups with text among the given ones *)
Definition with_text (l : list GroupInfo) : list GroupInfo :=
  filter (fun i => negb (String.eqb (gi_rawString i) "")) l.
(** The groups are the same apart from the last ones: at most [n] with text of the first list *)
Definition same_but_last (n : nat) (l l' : list GroupInfo) : Prop :=
  exists common last last', l = (common ++ last)%list /\ l' = (common ++ last')%list
    /\ (length (with_text last) <= n)%nat.

(** Found out while reading a word of the report, not by the report ending too early *)
Definition at_a_word (e : ReportError) : bool :=
  match e with RE_NONE | RE_EMPTY_REPORT | RE_UNEXPECTED_REPORT_END => false | _ => true end.
