(** Visibility and cloud groups: parse and append return normally. *)
From Verif Require Import Prim Regex Float Values Weather Groups1 Groups2 Lib Pf_Ok SpecDecimal
  Pf_Decimal SpecRegex Pf_Regex Pf_Caps Pf_OkValues Pf_Weather Pf_OkGroups1.
Local Open Scope string_scope.
Local Open Scope N_scope.

Lemma sfind_bound : forall c s p i, sfind c s p = Some i -> (i < slen s)%nat.
Proof.
  intros c s p i H; unfold sfind in H.
  destruct (Nat.lt_ge_cases p (slen s)) as [L|L].
  - assert (G : forall t k, sfind0 c t k = Some i -> (i < k + slen t)%nat).
    { clear; induction t as [|d t IH]; intros k H; cbn in H; [discriminate|].
      destruct (Ascii.eqb c d); [inv H; slia | apply IH in H; slia]. }
    apply G in H; rewrite sdrop_len in H; lia.
  - replace (sdrop p s) with "" in H; [discriminate|].
    symmetry; apply slen_zero; rewrite sdrop_len; lia.
Qed.

Lemma ok_try_append : forall (G : Type) (e : res (option G)) (k : res (G * AppendResult)),
  ok e (fun _ => True) -> ok k (fun _ => True) -> ok (try_append e k) (fun _ => True).
Proof.
  intros G e k H K; unfold try_append; apply ok_bind; eapply ok_mono; [exact H|];
    intros [a|] _; [exact I | exact K].
Qed.

Lemma ok_Vis_appendFractionToIncompleteInteger : forall g s n,
  ok (Vis_appendFractionToIncompleteInteger g s n) (fun _ => True).
Proof. intros; unfold Vis_appendFractionToIncompleteInteger; ok_auto. Qed.
Lemma ok_Vis_appendDirection : forall g s n, ok (Vis_appendDirection g s n) (fun _ => True).
Proof. intros; unfold Vis_appendDirection; ok_auto. Qed.
Lemma ok_Vis_appendRunway : forall g s n, ok (Vis_appendRunway g s n) (fun _ => True).
Proof. intros; unfold Vis_appendRunway; ok_auto. Qed.
Lemma ok_Vis_appendInteger : forall g s n, ok (Vis_appendInteger g s n) (fun _ => True).
Proof. intros; unfold Vis_appendInteger; ok_auto. Qed.
Lemma ok_Vis_appendFraction : forall g s n, ok (Vis_appendFraction g s n) (fun _ => True).
Proof. intros; unfold Vis_appendFraction; ok_auto. Qed.
Lemma ok_Vis_appendVariableMaxFraction : forall g s n,
  ok (Vis_appendVariableMaxFraction g s n) (fun _ => True).
Proof. intros; unfold Vis_appendVariableMaxFraction; ok_auto. Qed.
Lemma ok_Vis_appendVariable : forall g s n m, ok (Vis_appendVariable g s n m) (fun _ => True).
Proof.
  intros; unfold Vis_appendVariable.
  destruct (sfind "V" s 0) as [i|] eqn:F; [|exact I].
  apply sfind_bound in F; ok_auto.
Qed.
Lemma ok_Vis_appendMeters : forall g s n, ok (Vis_appendMeters g s n) (fun _ => True).
Proof. intros; unfold Vis_appendMeters; ok_auto. Qed.
Lemma ok_Vis_appendVariableMeters : forall g s n,
  ok (Vis_appendVariableMeters g s n) (fun _ => True).
Proof. intros; unfold Vis_appendVariableMeters; ok_auto. Qed.
#[global] Hint Resolve ok_Vis_appendFractionToIncompleteInteger ok_Vis_appendDirection
  ok_Vis_appendRunway ok_Vis_appendInteger ok_Vis_appendFraction ok_Vis_appendVariableMaxFraction
  ok_Vis_appendVariable ok_Vis_appendMeters ok_Vis_appendVariableMeters : okdb.

Lemma ok_Vis_fromIncompleteInteger : forall s, ok (Vis_fromIncompleteInteger s) (fun _ => True).
Proof. intros; unfold Vis_fromIncompleteInteger; ok_auto. Qed.
Lemma ok_Vis_fromMeters : forall s, ok (Vis_fromMeters s) (fun _ => True).
Proof. intros; unfold Vis_fromMeters; ok_auto. Qed.
Lemma ok_Vis_fromRvr : forall s, ok (Vis_fromRvr s) (fun _ => True).
Proof. intros; unfold Vis_fromRvr; ok_auto. Qed.
#[global] Hint Resolve ok_Vis_fromIncompleteInteger ok_Vis_fromMeters ok_Vis_fromRvr : okdb.
Lemma ok_VisibilityGroup_parse : forall s p md, ok (VisibilityGroup_parse s p md) (fun _ => True).
Proof. intros; unfold VisibilityGroup_parse, or_else; ok_auto. Qed.
Lemma ok_VisibilityGroup_append : forall g s p md,
  ok (VisibilityGroup_append g s p md) (fun _ => True).
Proof.
  intros; unfold VisibilityGroup_append; destruct (vi_inc g); cbv zeta;
    repeat first [apply ok_try_append | ok_step].
Qed.

Lemma ok_Cloud_parseCloudLayerOrVertVis : forall s,
  ok (Cloud_parseCloudLayerOrVertVis s) (fun _ => True).
Proof. intros; unfold Cloud_parseCloudLayerOrVertVis; ok_auto. Qed.
Lemma ok_Cloud_parseVariableCloudLayer : forall s,
  ok (Cloud_parseVariableCloudLayer s) (fun _ => True).
Proof. intros; unfold Cloud_parseVariableCloudLayer; ok_auto. Qed.
#[global] Hint Resolve ok_Cloud_parseCloudLayerOrVertVis ok_Cloud_parseVariableCloudLayer : okdb.
Lemma ok_CloudGroup_parse : forall s p md, ok (CloudGroup_parse s p md) (fun _ => True).
Proof. intros; unfold CloudGroup_parse; ok_auto. Qed.
Lemma ok_CloudGroup_append : forall g s p md, ok (CloudGroup_append g s p md) (fun _ => True).
Proof.
  intros; unfold CloudGroup_append, Cloud_appendVariableCloudAmount, Cloud_appendCeiling,
    Cloud_appendRunwayOrCardinalDirection, Cloud_appendObscuration; ok_auto.
Qed.
