(** Keyword, location, report time, trend and wind groups: parse and append return normally. *)
From Verif Require Import Prim Regex Float Values Weather Groups1 Lib Pf_Ok SpecDecimal Pf_Decimal
  SpecRegex Pf_Regex Pf_Caps Pf_OkValues Pf_Weather.
Local Open Scope string_scope.
Local Open Scope N_scope.

Lemma is_match_len : forall r s n, is_match r s = true -> maxlen r = Some n ->
  (minlen r <= slen s <= n)%nat.
Proof.
  intros r s n H M; apply is_match_lang in H; split;
    [apply lang_minlen; exact H | eapply lang_maxlen; eassumption].
Qed.

Lemma ok_or_else : forall (A : Type) (e k : res (option A)) (P : option A -> Prop),
  ok e (fun o => match o with Some a => P (Some a) | None => ok k P end) -> ok (or_else e k) P.
Proof.
  intros A e k P H; unfold or_else; apply ok_bind; eapply ok_mono; [exact H|].
  intros [a|] Ha; exact Ha.
Qed.
Lemma ok_T_or_else : forall (A : Type) (e k : res (option A)),
  ok e (fun _ => True) -> ok k (fun _ => True) -> ok (or_else e k) (fun _ => True).
Proof.
  intros A e k H K; apply ok_or_else; eapply ok_mono; [exact H|]; intros [a|] _; [exact I | exact K].
Qed.

Lemma ok_KeywordGroup_parse : forall s p md, ok (KeywordGroup_parse s p md) (fun _ => True).
Proof. intros; unfold KeywordGroup_parse; ok_auto. Qed.
Lemma ok_KeywordGroup_append : forall g s p md, ok (KeywordGroup_append g s p md) (fun _ => True).
Proof. intros; exact I. Qed.

Lemma ok_LocationGroup_parse : forall s p md, ok (LocationGroup_parse s p md) (fun _ => True).
Proof. intros; unfold LocationGroup_parse; ok_auto. Qed.
Lemma ok_LocationGroup_append : forall g s p md, ok (LocationGroup_append g s p md) (fun _ => True).
Proof. intros; exact I. Qed.

Lemma ok_ReportTimeGroup_parse : forall s p md, ok (ReportTimeGroup_parse s p md) (fun _ => True).
Proof.
  intros; unfold ReportTimeGroup_parse; ok_auto.
Qed.
Lemma ok_ReportTimeGroup_append : forall g s p md,
  ok (ReportTimeGroup_append g s p md) (fun _ => True).
Proof. intros; exact I. Qed.

Lemma ok_Trend_fromTimeSpan : forall s, ok (Trend_fromTimeSpan s) (fun _ => True).
Proof. intros; unfold Trend_fromTimeSpan; ok_auto. Qed.
Lemma ok_Trend_fromTimeSpanHHMM : forall s, ok (Trend_fromTimeSpanHHMM s) (fun _ => True).
Proof. intros; unfold Trend_fromTimeSpanHHMM; ok_auto. Qed.
Lemma ok_Trend_fromFm : forall s, ok (Trend_fromFm s) (fun _ => True).
Proof.
  intros s; unfold Trend_fromFm; destruct (is_match rgx_fm s) eqn:M; [|exact I].
  apply (is_match_len _ _ 8%nat) in M; [|reflexivity].
  change (minlen rgx_fm) with 8%nat in M.
  ok_auto.
Qed.
Lemma ok_Trend_fromTrendTime : forall s, ok (Trend_fromTrendTime s) (fun _ => True).
Proof. intros; unfold Trend_fromTrendTime; ok_auto. Qed.
#[global] Hint Resolve ok_Trend_fromTimeSpan ok_Trend_fromTimeSpanHHMM ok_Trend_fromFm
  ok_Trend_fromTrendTime : okdb.
Lemma ok_TrendGroup_parse : forall s p md, ok (TrendGroup_parse s p md) (fun _ => True).
Proof. intros; unfold TrendGroup_parse, or_else; ok_auto. Qed.
#[global] Hint Resolve ok_TrendGroup_parse : okdb.
Lemma ok_TrendGroup_append : forall g s p md, ok (TrendGroup_append g s p md) (fun _ => True).
Proof. intros; unfold TrendGroup_append; ok_auto. Qed.

Lemma ok_Wind_parseVariableSector : forall s, ok (Wind_parseVariableSector s) (fun _ => True).
Proof. intros; unfold Wind_parseVariableSector; ok_auto. Qed.
Lemma ok_Wind_parseSurfaceOrShear : forall s, ok (Wind_parseSurfaceOrShear s) (fun _ => True).
Proof. intros; unfold Wind_parseSurfaceOrShear; ok_auto. Qed.
#[global] Hint Resolve ok_Wind_parseVariableSector ok_Wind_parseSurfaceOrShear : okdb.
Lemma ok_WindGroup_parse : forall s p md, ok (WindGroup_parse s p md) (fun _ => True).
Proof. intros; unfold WindGroup_parse, or_else; ok_auto. Qed.

(** stoi of a capture which consists of a few digits. *)
Ltac stoi_capture H :=
  first
  [ eapply ok_true, stoi_two; [exact H|..]; try (vm_compute; reflexivity); vm_compute; lia
  | eapply ok_true, stoi_opt; [exact H|..]; try (vm_compute; reflexivity);
    first [apply sempty_false; assumption | assumption] ].

Lemma ok_Wind_appendPeakWind : forall g s md, ok (Wind_appendPeakWind g s md) (fun _ => True).
Proof.
  intros g s md; unfold Wind_appendPeakWind.
  destruct (regex_match rgx_pkwnd s) as [m|] eqn:R; [|exact I].
  apply ok_bind; eapply ok_mono; [apply ok_Direction_fromDegreesString|]; intros [d|] _; [|exact I].
  apply ok_bind; eapply ok_mono; [apply ok_Speed_fromString|]; intros [sp|] _; [|exact I].
  cbv zeta; destruct (sempty (mstr m 3)) eqn:E3.
  - destruct (md_reportTime md) as [t|]; [|exact I]; cbn [has_value negb andb deref bind].
    apply ok_bind; eapply ok_mono; [stoi_capture R|]; intros; exact I.
  - rewrite andb_false_r.
    apply ok_bind; eapply ok_mono; [stoi_capture R|]; intros h _.
    apply ok_bind; eapply ok_mono; [stoi_capture R|]; intros; exact I.
Qed.
Lemma ok_Wind_appendWindShift : forall g s md, ok (Wind_appendWindShift g s md) (fun _ => True).
Proof.
  intros g s md; unfold Wind_appendWindShift.
  destruct (md_reportTime md) as [t|]; cbn [has_value andb deref bind]; ok_auto.
Qed.
#[global] Hint Resolve ok_Wind_appendPeakWind ok_Wind_appendWindShift : okdb.
Lemma ok_WindGroup_append : forall g s p md, ok (WindGroup_append g s p md) (fun _ => True).
Proof. intros; unfold WindGroup_append, Wind_appendVariableSector; ok_auto. Qed.
