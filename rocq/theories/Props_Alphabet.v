(** C78: free text is not read as weather. *)
From Coq Require Import Ascii.
From Verif Require Import Prim Regex Float Values Weather Groups1 Groups2 Groups3 Groups4 Parser.
From Verif Require Import SpecTokens SpecReads SpecText SpecAlphabet Pf_Alphabet.
Local Open Scope string_scope.

(** What follows LTG is not looked at. *)
Theorem C78_alphabet_partial :
  forall (sgn : bool) (report : string) (groupLimit : nat) (r : ParseResult),
    parse sgn report groupLimit = Ok r ->
    forall g part raw, In (mkGroupInfo g part raw) (pr_groups r) -> ~ not_understood g ->
    forall w, In w (words_of raw) ->
    metar_word w \/ (about_lightning g /\ lightning_word w).
Proof. exact alphabet. Qed.
Print Assumptions C78_alphabet_partial.

Theorem C78_alphabet_refuted :
  ~ forall (sgn : bool) (report : string) (groupLimit : nat) (r : ParseResult),
    parse sgn report groupLimit = Ok r ->
    forall g part raw, In (mkGroupInfo g part raw) (pr_groups r) -> ~ not_understood g ->
    forall w, In w (words_of raw) -> metar_word w.
Proof. exact alphabet_refuted. Qed.
Print Assumptions C78_alphabet_refuted.

(** The words of this report, and which of them are understood: what is written in small letters, and words with other
    signs, are not. *)
Definition understood (r : res ParseResult) : list (string * bool) :=
  match r with
  | Ok r => map (fun i => (gi_rawString i, match gi_group i with GUnknown _ => false | _ => true end)) (pr_groups r)
  | Bad _ => []
  end.
Example C78_nonvacuous :
  understood (parse true "METAR ZZZZ 010000Z 33015KT 2 1/2SM -Ra Q1013* +RA RMK AO2 Slp134 LTGyes" 100)
  = [("METAR", true); ("ZZZZ", true); ("010000Z", true); ("33015KT", true); ("2 1/2SM", true); ("-Ra Q1013*", false);
     ("+RA", true); ("RMK", true); ("AO2", true); ("Slp134", false); ("LTGyes", true)].
Proof. vm_compute. reflexivity. Qed.
