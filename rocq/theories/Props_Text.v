(** C05, C06, C08, C45: what becomes of the text of the report. *)
From Verif Require Import Prim Regex Float Values Weather Groups1 Groups2 Groups3 Groups4 Parser.
From Verif Require Import SpecTokens SpecReads SpecText SpecReach Pf_Steps Pf_Shape Pf_Reparse Pf_Ghost.
Local Open Scope string_scope.

(** C05: [report_groups] are the groups of the report (characterised in Props_Tokens, C02), [rest] are
    those that were not consumed. *)
Theorem C05_raw_text_conserved :
  forall (sgn : bool) (report : string) (groupLimit : nat) (r : ParseResult),
    parse sgn report groupLimit = Ok r ->
    exists rest, report_groups sgn report = (words_of_result r ++ rest)%list
      /\ (md_error (pr_metadata r) = RE_NONE -> rest = []).
Proof. exact raw_text_conserved. Qed.
Print Assumptions C05_raw_text_conserved.

Example C05_nonvacuous :
  match parse true "METAR ZZZZ 010000Z 00000KT 1 1/2SM FOO BAR R24/ CAVOK=" 100 with
  | Ok r => map gi_rawString (pr_groups r) =
      ["METAR"; "ZZZZ"; "010000Z"; "00000KT"; "1 1/2SM"; "FOO BAR R24/"; "CAVOK"]
      /\ md_error (pr_metadata r) = RE_NONE
  | Bad _ => False
  end.
Proof. vm_compute. auto. Qed.

(** C06 does not hold: after two re-parses of one group of the report a group without text stays in
    the result, so that six groups of the report give seven. *)
Definition ghost_report : string := "METAR ZZZZ 010000Z RMK BLSN AO2".
Theorem C06_one_group_per_word_refuted :
  exists (report : string) (r : ParseResult) (i : GroupInfo),
    parse true report 100 = Ok r
    /\ In i (pr_groups r) /\ gi_rawString i = "" /\ is_unknown i = false
    /\ md_error (pr_metadata r) = RE_NONE
    /\ (length (report_groups true report) < length (pr_groups r))%nat.
Proof.
  exists ghost_report.
  destruct (parse true ghost_report 100) as [r|] eqn:E; [|vm_compute in E; discriminate E].
  exists r, (nth 4 (pr_groups r) (mkGroupInfo (GUnknown mkUnknown) RP_UNKNOWN "?")).
  vm_compute in E; injection E as <-; vm_compute; intuition auto with arith.
Qed.
Print Assumptions C06_one_group_per_word_refuted.

(** What does hold: a group without text is followed by an unknown group with text ... *)
Theorem C06_group_without_text_precedes_unknown_partial :
  forall (sgn : bool) (report : string) (groupLimit : nat) (r : ParseResult) (n : nat) (i : GroupInfo),
    parse sgn report groupLimit = Ok r ->
    nth_error (pr_groups r) n = Some i -> words_of (gi_rawString i) = [] ->
    exists u, nth_error (pr_groups r) (S n) = Some u /\ is_unknown u = true
      /\ words_of (gi_rawString u) <> [].
Proof. exact empty_before_unknown. Qed.
Print Assumptions C06_group_without_text_precedes_unknown_partial.

(** ... and is a cloud group or a vicinity group ... *)
Theorem C06_group_without_text_kinds_partial :
  forall (sgn : bool) (report : string) (groupLimit : nat) (r : ParseResult),
    parse sgn report groupLimit = Ok r ->
    forall g part, In (mkGroupInfo g part "") (pr_groups r) -> (exists c, g = GCloud c) \/ (exists v, g = GVicinity v).
Proof. exact ghost_kinds. Qed.
Print Assumptions C06_group_without_text_kinds_partial.

(** ... so there are at most twice as many groups as in the consumed part of the report. *)
Theorem C06_result_at_most_twice_the_report_partial :
  forall (sgn : bool) (report : string) (groupLimit : nat) (r : ParseResult),
    parse sgn report groupLimit = Ok r ->
    (length (pr_groups r) <= 2 * length (words_of_result r))%nat.
Proof. exact result_size. Qed.
Print Assumptions C06_result_at_most_twice_the_report_partial.

(** C08 *)
Theorem C08_unknown_groups_merged :
  forall (sgn : bool) (report : string) (groupLimit : nat) (r : ParseResult),
    parse sgn report groupLimit = Ok r -> no_two_adjacent is_unknown (pr_groups r).
Proof. exact unknown_merged. Qed.
Print Assumptions C08_unknown_groups_merged.

Example C08_nonvacuous :
  match parse true "METAR ZZZZ 010000Z FOO BAR 9999 BAZ" 100 with
  | Ok r => map is_unknown (pr_groups r) = [false; false; false; true; false; true]
  | Bad _ => False
  end.
Proof. vm_compute. reflexivity. Qed.

(** C45: re-parsing gives an unknown group or one of another kind ([Group_index] is the index of the
    alternative that the variant holds). *)
Theorem C45_reparse_gives_another_kind :
  forall (s : string) (part : ReportPart) (md : ReportMetadata) (previous g : Group),
    GroupParser_reparse s part md previous = Ok g ->
    g = GUnknown mkUnknown \/ Group_index g <> Group_index previous.
Proof. exact reparse_other_kind. Qed.
Print Assumptions C45_reparse_gives_another_kind.

(** A group that the next word invalidates is, after that word has been offered, replaced by an unknown
    group or by one of another kind, however the re-parsed group takes the word. The list is the
    result so far in reverse order. *)
Theorem C45_invalidated_group_changes_kind :
  forall (i : GroupInfo) (rest : list GroupInfo) (s : string) (part : ReportPart) (md : ReportMetadata)
         (g : Group) (groups : list GroupInfo) (appended : bool),
    is_unknown i = false ->
    Group_append (gi_group i) s part md = Ok (g, GROUP_INVALIDATED) ->
    appendToLastResultGroup (i :: rest) s part md = Ok (groups, appended) ->
    exists j tail, groups = j :: tail
      /\ (is_unknown j = true \/ Group_index (gi_group j) <> Group_index (gi_group i)).
Proof. exact invalidated_head. Qed.
Print Assumptions C45_invalidated_group_changes_kind.

(** "1" is first taken as whole miles of visibility and invalidated by "OVC010"; in the remarks "BLSN"
    changes from cloud (obscuration) to vicinity to unknown. *)
Example C45_nonvacuous :
  (exists g, GroupParser_parse "1" RP_METAR md_default = Ok g
     /\ (exists g', Group_append g "OVC010" RP_METAR md_default = Ok (g', GROUP_INVALIDATED))
     /\ GroupParser_reparse "1" RP_METAR md_default g = Ok (GUnknown mkUnknown))
  /\ (exists g h, GroupParser_parse "BLSN" RP_RMK md_default = Ok g
     /\ (exists g', Group_append g "FOO" RP_RMK md_default = Ok (g', GROUP_INVALIDATED))
     /\ GroupParser_reparse "BLSN" RP_RMK md_default g = Ok h /\ Group_index g = 6%nat /\ Group_index h = 19%nat).
Proof.
  split; [eexists | eexists _, _]; repeat split; try eexists; vm_compute; reflexivity.
Qed.
