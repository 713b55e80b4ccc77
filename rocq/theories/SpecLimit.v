(** Specification for C07: which groups count towards the limit. *)
From Verif Require Import Prim Values Weather Groups1 Groups2 Groups3 Groups4 Parser SpecTokens SpecReads SpecText.
Local Open Scope string_scope.

(** A METAR that does not begin with its type: the parser finds out only at the first group after the
    report time. *)
Definition untyped_metar (words : list string) (type : ReportType) : bool :=
  match words with
  | first :: _ => ReportType_beq type RT_METAR && negb (seqb first "METAR" || seqb first "SPECI")
  | [] => false
  end.
(** Every consumed group of the report counts once, except that the group at which the type of an
    untyped METAR is found counts twice. *)
Definition groups_counted (r : ParseResult) : nat :=
  length (words_of_result r)
  + (if untyped_metar (words_of_result r) (md_type (pr_metadata r)) then 1 else 0).
