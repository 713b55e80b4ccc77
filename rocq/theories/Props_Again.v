(** C05, C74, C75: the form of the texts, reading the texts of a result once more, and reading a report with more words. *)
From Verif Require Import Prim Regex Float Values Weather Groups1 Groups2 Groups3 Groups4 Parser.
From Verif Require Import SpecTokens SpecText SpecAgain Pf_Again.
Local Open Scope string_scope.

(** *** C05 *)
(** The text of a group is made of words of the report with single spaces between them and nothing else. *)
Theorem C05_single_spaces :
  forall (sgn : bool) (report : string) (groupLimit : nat) (r : ParseResult) (i : GroupInfo),
    parse sgn report groupLimit = Ok r -> In i (pr_groups r) ->
    gi_rawString i = join_words (words_of (gi_rawString i)).
Proof. exact single_spaces. Qed.
Print Assumptions C05_single_spaces.

(** *** C74 *)
(** The texts of the groups with spaces between them are a report with the same result: the same groups with the same
    texts, and the same metadata, including the error if there is one. *)
Theorem C74_texts_give_the_result :
  forall (sgn : bool) (report : string) (groupLimit : nat) (r : ParseResult),
    parse sgn report groupLimit = Ok r -> parse sgn (texts r) groupLimit = Ok r.
Proof. exact read_again. Qed.
Print Assumptions C74_texts_give_the_result.

(** Two lines, a word which is not recognised, a group of two words, and text after the end; and a report with an error. *)
Example C74_nonvacuous :
  let report := "METAR ZZZZ  010000Z" ++ String "010"%char "FOO 1 1/2SM BLU+WHT=  BAR" in
  (exists r, parse true report 100 = Ok r /\ texts r = "METAR ZZZZ 010000Z FOO 1 1/2SM BLU+ WHT" /\ texts r <> report
     /\ parse true (texts r) 100 = Ok r /\ md_error (pr_metadata r) = RE_NONE)
  /\ exists r, parse true "METAR ZZZZ 010000Z NIL 9999 CAVOK" 100 = Ok r
     /\ texts r = "METAR ZZZZ 010000Z NIL 9999" /\ parse true (texts r) 100 = Ok r
     /\ md_error (pr_metadata r) = RE_UNEXPECTED_GROUP_AFTER_NIL.
Proof.
  split; eexists; (split; [vm_compute; reflexivity|]); repeat split; try (vm_compute; reflexivity).
  vm_compute; discriminate.
Qed.

(** *** C75 *)
(** Words added at the end of a report change at most the last two groups. *)
Theorem C75_more_words :
  forall (sgn : bool) (report : string) (groupLimit : nat) (more : string) (r r' : ParseResult),
    parse sgn report groupLimit = Ok r -> parse sgn (report ++ " " ++ more) groupLimit = Ok r' ->
    same_but_last 2 (pr_groups r) (pr_groups r').
Proof. exact more_words. Qed.
Print Assumptions C75_more_words.

(** After an error at a word of the report the words which follow make no difference at all. *)
Theorem C75_error_stops :
  forall (sgn : bool) (report : string) (groupLimit : nat) (r : ParseResult) (more : string),
    parse sgn report groupLimit = Ok r -> at_a_word (md_error (pr_metadata r)) = true ->
    parse sgn (report ++ " " ++ more) groupLimit = Ok r.
Proof. exact error_stops. Qed.
Print Assumptions C75_error_stops.

(** "FOO 1" becomes two groups when the rest of the visibility follows, and the groups before it stay. *)
Example C75_nonvacuous :
  (exists r r', parse true "METAR ZZZZ 010000Z 00000KT FOO 1" 100 = Ok r
     /\ parse true ("METAR ZZZZ 010000Z 00000KT FOO 1" ++ " " ++ "1/2SM CAVOK") 100 = Ok r'
     /\ map gi_rawString (pr_groups r) = ["METAR"; "ZZZZ"; "010000Z"; "00000KT"; "FOO 1"]
     /\ map gi_rawString (pr_groups r') = ["METAR"; "ZZZZ"; "010000Z"; "00000KT"; "FOO"; "1 1/2SM"; "CAVOK"])
  /\ exists r, parse true "METAR 010000Z" 100 = Ok r /\ at_a_word (md_error (pr_metadata r)) = true.
Proof.
  split; [eexists _, _; (split; [vm_compute; reflexivity|]); (split; [vm_compute; reflexivity|]); split; vm_compute; reflexivity|].
  eexists; split; [vm_compute; reflexivity|reflexivity].
Qed.

(** Not less than two: the word not recognised and the visibility after it become one group. *)
Theorem C75_two_groups_change :
  exists (report more : string) (r r' : ParseResult), parse true report 100 = Ok r /\ parse true (report ++ " " ++ more) 100 = Ok r'
    /\ ~ same_but_last 1 (pr_groups r) (pr_groups r').
Proof. exact two_change. Qed.
Print Assumptions C75_two_groups_change.
