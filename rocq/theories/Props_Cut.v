(** C80: a smaller group limit only cuts the result off. *)
From Verif Require Import Prim Regex Float Values Weather Groups1 Groups2 Groups3 Groups4 Parser.
From Verif Require Import SpecText SpecAgain Pf_Cut.
Local Open Scope string_scope.

(** The same report with a smaller and with a larger limit: the groups are the same up to the last two (with text) of the
    shorter result. *)
Theorem C80_limit_cuts :
  forall (sgn : bool) (report : string) (limit limit' : nat) (r r' : ParseResult), (limit <= limit')%nat ->
    parse sgn report limit = Ok r -> parse sgn report limit' = Ok r' ->
    same_but_last 2 (pr_groups r) (pr_groups r').
Proof. exact limit_cuts. Qed.
Print Assumptions C80_limit_cuts.

(** The words which were read with the smaller limit are the first of those read with the larger one. *)
Theorem C80_words_cut :
  forall (sgn : bool) (report : string) (limit limit' : nat) (r r' : ParseResult), (limit <= limit')%nat ->
    parse sgn report limit = Ok r -> parse sgn report limit' = Ok r' ->
    exists more, words_of_result r' = (words_of_result r ++ more)%list.
Proof. exact limit_words. Qed.
Print Assumptions C80_words_cut.

(** The limit stops at the beginning of a visibility, and at the word which is looked at twice because the type of the
    report is not told: it is then taken as a part of the header. *)
Definition told (r : res ParseResult) : list (nat * ReportPart * string) :=
  match r with Ok r => map (fun i => (Group_index (gi_group i), gi_reportPart i, gi_rawString i)) (pr_groups r) | Bad _ => [] end.
Example C80_nonvacuous :
  map snd (told (parse true "METAR ZZZZ 010000Z FOO 1 1/2SM CAVOK" 5)) = ["METAR"; "ZZZZ"; "010000Z"; "FOO 1"]
  /\ map snd (told (parse true "METAR ZZZZ 010000Z FOO 1 1/2SM CAVOK" 6)) = ["METAR"; "ZZZZ"; "010000Z"; "FOO"; "1 1/2SM"]
  /\ map snd (told (parse true "METAR ZZZZ 010000Z FOO 1 1/2SM CAVOK" 9)) = ["METAR"; "ZZZZ"; "010000Z"; "FOO"; "1 1/2SM"; "CAVOK"]
  /\ told (parse true "ZZZZ 010000Z 9999 NOSIG" 3) = [(1%nat, RP_HEADER, "ZZZZ"); (2%nat, RP_HEADER, "010000Z"); (21%nat, RP_HEADER, "9999")]
  /\ told (parse true "ZZZZ 010000Z 9999 NOSIG" 9)
     = [(1%nat, RP_HEADER, "ZZZZ"); (2%nat, RP_HEADER, "010000Z"); (5%nat, RP_METAR, "9999"); (3%nat, RP_METAR, "NOSIG")].
Proof. vm_compute. repeat split. Qed.
