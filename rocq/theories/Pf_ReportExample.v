(** C59: examples of reports and of words which are not a report. *)
From Coq Require Import Lia.
From Verif Require Import Prim Lib Regex Float Values Weather Groups1 Groups2 Groups3 Groups4 Parser SpecTokens SpecReads SpecText SpecNumeral SpecTrend
  SpecAssembled SpecOpenings SpecSentence SpecWhole Pf_SentenceExample Pf_ReportIff.
Local Open Scope string_scope.

Definition summary (sgn : bool) (report : string) : option (ReportType * option MetafTime * ReportError * nat) :=
  match parse sgn report 100 with
  | Ok r => Some (md_type (pr_metadata r), md_reportTime (pr_metadata r), md_error (pr_metadata r), length (pr_groups r))
  | Bad _ => None
  end.
Lemma is_report : forall sgn report type now k, summary sgn report = Some (type, now, RE_NONE, k) ->
  exists groups n, Report (report_groups sgn report) type now groups n /\ length groups = k.
Proof.
  intros sgn report type now k H. unfold summary in H. destruct (parse sgn report 100) as [r|] eqn:E; [|discriminate H]. injection H as H1 H2 H3 H4.
  destruct (proj1 (report_iff sgn report 100 type now (pr_groups r))) as (n & R & _); [exists r; repeat split; auto|]. exists (pr_groups r), n. auto.
Qed.
Lemma no_report : forall sgn report type now e k, summary sgn report = Some (type, now, e, k) -> (length (report_groups sgn report) < 99)%nat -> e <> RE_NONE ->
  forall type now groups n, ~ Report (report_groups sgn report) type now groups n.
Proof.
  intros sgn report type now e k H L E type' now' groups n R. unfold summary in H. destruct (parse sgn report 100) as [r|] eqn:P; [|discriminate H]. injection H as H1 H2 H3 H4.
  apply E. rewrite <- H3. apply (no_error_iff _ _ _ _ P). destruct (report_count _ _ _ _ _ R) as [_ En]. do 4 eexists. split; [exact R|]. destruct (SpecLimit.untyped_metar _ type'); lia.
Qed.
Lemma examples :
  (exists groups n, Report (report_groups true e_report) RT_METAR (Some issue_time) groups n /\ length groups = 14)
  /\ (forall type now groups n, ~ Report (report_groups true "24008KT 9999 FEW020 20/10 Q1013") type now groups n)
  /\ (exists groups n, Report (report_groups true "TAF YUDO NIL=") RT_TAF None groups n /\ length groups = 3)
  /\ (exists t groups n, Report (report_groups true "YUDO 091130Z 0912/1012 CNL=") RT_TAF (Some t) groups n /\ length groups = 4).
Proof.
  split; [|split; [|split]].
  - apply is_report. vm_compute. reflexivity.
  - eapply no_report; [vm_compute; reflexivity|vm_compute; lia|discriminate].
  - apply is_report. vm_compute. reflexivity.
  - eexists. apply is_report. vm_compute. reflexivity.
Qed.
