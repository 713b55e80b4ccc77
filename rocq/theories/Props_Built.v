(** C47: every group of the result comes from the words of its text. *)
From Verif Require Import Prim Regex Float Values Weather Groups1 Groups2 Groups3 Groups4 Parser.
From Verif Require Import SpecTokens SpecReads SpecText SpecBuilt Pf_Built.
Local Open Scope string_scope.

(** Groups without text are the subject of C06. *)
Theorem C47_built_from_its_words :
  forall (sgn : bool) (report : string) (groupLimit : nat) (r : ParseResult),
    parse sgn report groupLimit = Ok r ->
    forall g part raw, In (mkGroupInfo g part raw) (pr_groups r) -> raw <> "" ->
    Built part (words_of raw) g.
Proof. exact built_from_words. Qed.
Print Assumptions C47_built_from_its_words.

Definition texts (r : res ParseResult) : list string :=
  match r with Ok r => map gi_rawString (pr_groups r) | Bad _ => [] end.
Example C47_nonvacuous :
  texts (parse true "METAR ZZZZ 010000Z 33015KT 300V360 2 1/2SM RMK PK WND 33025/12=" 100)
  = ["METAR"; "ZZZZ"; "010000Z"; "33015KT 300V360"; "2 1/2SM"; "RMK"; "PK WND 33025/12"]
  /\ words_of "2 1/2SM" = ["2"; "1/2SM"].
Proof. vm_compute. split; reflexivity. Qed.
