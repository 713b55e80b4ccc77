(** C07: the group limit. *)
From Verif Require Import Prim Regex Float Values Weather Groups1 Groups2 Groups3 Groups4 Parser.
From Verif Require Import SpecTokens SpecReads SpecText SpecLimit Pf_Limit.
Local Open Scope string_scope.

(** [words_of_result r] are the groups of the report that were consumed (C05). *)
Theorem C07_limit_bounds_work :
  forall (sgn : bool) (report : string) (groupLimit : nat) (r : ParseResult),
    parse sgn report groupLimit = Ok r ->
    (length (words_of_result r) <= Nat.max 1 groupLimit)%nat.
Proof. exact limit_bounds_work. Qed.
Print Assumptions C07_limit_bounds_work.

Theorem C07_too_large_iff_limit_reached :
  forall (sgn : bool) (report : string) (groupLimit : nat) (r : ParseResult),
    parse sgn report groupLimit = Ok r ->
    (md_error (pr_metadata r) = RE_REPORT_TOO_LARGE
     <-> (words_of_result r <> [] /\ (groupLimit <= groups_counted r)%nat)).
Proof. exact limit_exact. Qed.
Print Assumptions C07_too_large_iff_limit_reached.

Theorem C07_result_independent_of_limit :
  forall (sgn : bool) (report : string) (limit limit' : nat) (r r' : ParseResult),
    parse sgn report limit = Ok r -> parse sgn report limit' = Ok r' ->
    md_error (pr_metadata r) <> RE_REPORT_TOO_LARGE ->
    md_error (pr_metadata r') <> RE_REPORT_TOO_LARGE -> r = r'.
Proof. exact limit_irrelevant. Qed.
Print Assumptions C07_result_independent_of_limit.

(** Raising the limit never turns a complete result into another one. *)
Theorem C07_higher_limit_same_result :
  forall (sgn : bool) (report : string) (limit limit' : nat) (r : ParseResult),
    (limit <= limit')%nat -> parse sgn report limit = Ok r ->
    md_error (pr_metadata r) <> RE_REPORT_TOO_LARGE -> parse sgn report limit' = Ok r.
Proof. exact limit_monotone. Qed.
Print Assumptions C07_higher_limit_same_result.

Theorem C07_limit_bounds_result :
  forall (sgn : bool) (report : string) (groupLimit : nat) (r : ParseResult),
    parse sgn report groupLimit = Ok r ->
    (length (pr_groups r) <= 2 * Nat.max 1 groupLimit)%nat.
Proof. exact limit_bounds_size. Qed.
Print Assumptions C07_limit_bounds_result.

(** Six groups: limit 6 is reached, limit 7 is not; without the type the first group after the time
    counts twice. *)
Definition limit_words (r : res ParseResult) : nat * nat * ReportError :=
  match r with
  | Ok r => (length (words_of_result r), groups_counted r, md_error (pr_metadata r))
  | Bad _ => (0, 0, RE_NONE)%nat
  end.
Example C07_nonvacuous :
  limit_words (parse true "METAR ZZZZ 010000Z 00000KT 9999 CAVOK" 6) = (6, 6, RE_REPORT_TOO_LARGE)%nat
  /\ limit_words (parse true "METAR ZZZZ 010000Z 00000KT 9999 CAVOK" 7) = (6, 6, RE_NONE)%nat
  /\ limit_words (parse true "METAR ZZZZ 010000Z 00000KT 9999 CAVOK" 0) = (1, 1, RE_REPORT_TOO_LARGE)%nat
  /\ limit_words (parse true "ZZZZ 010000Z 00000KT 9999 CAVOK" 6) = (5, 6, RE_REPORT_TOO_LARGE)%nat
  /\ limit_words (parse true "ZZZZ 010000Z 00000KT 9999 CAVOK" 7) = (5, 6, RE_NONE)%nat.
Proof. repeat split; vm_compute; reflexivity. Qed.
