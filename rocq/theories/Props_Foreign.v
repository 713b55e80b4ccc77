(** C81: a word which is not understood changes nothing else. *)
From Verif Require Import Prim Regex Float Values Weather Groups1 Groups2 Groups3 Groups4 Parser.
From Verif Require Import SpecTokens SpecText SpecAlphabet SpecSentence SpecForeign Pf_Foreign.
Local Open Scope string_scope.

(** A report without error; the same report with one more word at some place in the body or in the remarks: all other
    groups, and all attributes of the report, are as before. The new word is a group of its own or, beside other words
    which are not understood, one group with them. *)
Theorem C81_foreign_word :
  forall (sgn : bool) (report : string) (limit : nat) (r : ParseResult),
    parse sgn report limit = Ok r -> md_error (pr_metadata r) = RE_NONE ->
    forall before after w, pr_groups r = (before ++ after)%list -> place before after -> foreign w ->
    forall report' limit', report_groups sgn report' = (words_in before ++ w :: words_in after)%list -> limit < limit' ->
    exists r', parse sgn report' limit' = Ok r' /\ pr_metadata r' = pr_metadata r
      /\ pr_groups r'
         = merged (before ++ mkGroupInfo (GUnknown mkUnknown) (part_after (md_type (pr_metadata r)) before) w :: after).
Proof. exact foreign_word. Qed.
Print Assumptions C81_foreign_word.

(** A word within the body, before groups of two words; and one in the remarks beside another one *)
Definition groups_read (r : res ParseResult) : list (string * bool * ReportPart) :=
  match r with
  | Ok r => map (fun i => (gi_rawString i, match gi_group i with GUnknown _ => false | _ => true end, gi_reportPart i)) (pr_groups r)
  | Bad _ => []
  end.
Example C81_nonvacuous :
  (exists r before after, parse true "ZZZZ 010000Z 00000KT 1 1/2SM XYZ RMK PK WND 28045/15 hello" 100 = Ok r
     /\ md_error (pr_metadata r) = RE_NONE /\ pr_groups r = (before ++ after)%list /\ place before after /\ foreign "a_b"
     /\ words_in before = ["ZZZZ"; "010000Z"; "00000KT"] /\ words_in after = ["1"; "1/2SM"; "XYZ"; "RMK"; "PK"; "WND"; "28045/15"; "hello"])
  /\ groups_read (parse true "ZZZZ 010000Z 00000KT a_b 1 1/2SM XYZ RMK PK WND 28045/15 hello" 101)
     = [("ZZZZ", true, RP_HEADER); ("010000Z", true, RP_HEADER); ("00000KT", true, RP_METAR); ("a_b", false, RP_METAR);
        ("1 1/2SM", true, RP_METAR); ("XYZ", false, RP_METAR); ("RMK", true, RP_METAR); ("PK WND 28045/15", true, RP_RMK);
        ("hello", false, RP_RMK)]
  /\ groups_read (parse true "ZZZZ 010000Z 00000KT 1 1/2SM XYZ a_b RMK PK WND 28045/15 hello" 101)
     = [("ZZZZ", true, RP_HEADER); ("010000Z", true, RP_HEADER); ("00000KT", true, RP_METAR);
        ("1 1/2SM", true, RP_METAR); ("XYZ a_b", false, RP_METAR); ("RMK", true, RP_METAR); ("PK WND 28045/15", true, RP_RMK);
        ("hello", false, RP_RMK)].
Proof.
  split; [|split; vm_compute; reflexivity].
  destruct (parse true "ZZZZ 010000Z 00000KT 1 1/2SM XYZ RMK PK WND 28045/15 hello" 100) as [r|] eqn:E; [|vm_compute in E; discriminate E].
  exists r, (firstn 3 (pr_groups r)), (skipn 3 (pr_groups r)). vm_compute in E. injection E as <-. cbn [pr_groups firstn skipn pr_metadata md_error].
  split; [reflexivity|]. split; [reflexivity|]. split; [reflexivity|]. split; [|split; [|split; reflexivity]].
  - split; [|split].
    + intros i I. cbn [In] in I. repeat (destruct I as [<-|I]; [discriminate|]). destruct I.
    + intros i I. cbn [In app] in I. repeat (destruct I as [<-|I]; [cbn; intuition discriminate|]). destruct I.
    + intros l i X. destruct l as [|? [|? [|? [|]]]]; try discriminate X; injection X; intros; subst; discriminate.
  - split.
    + intros H. specialize (H "a" "_"%char "b" eq_refl). discriminate H.
    + intros [t X]. discriminate X.
Qed.
