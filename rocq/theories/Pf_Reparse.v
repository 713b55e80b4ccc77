(** What becomes of a group that its follower has invalidated (C45). *)
From Verif Require Import Prim Regex Float Values Weather Groups1 Groups2 Groups3 Groups4 Parser Lib
  SpecText Pf_Ok SpecReach Pf_Total Pf_Steps Pf_Kinds.
Local Open Scope string_scope.

Lemma reparse_other_kind : forall s part md prev g, GroupParser_reparse s part md prev = Ok g ->
  g = GUnknown mkUnknown \/ Group_index g <> Group_index prev.
Proof.
  intros s part md prev g H; apply GroupParser_reparse_inv in H; destruct H as [H|[_ H]]; auto.
Qed.

Lemma fallback_unknown : forall g, is_fallback g = true -> exists u, g = GUnknown u.
Proof. intros g H; destruct g; try discriminate H; eauto. Qed.

Lemma noReparse_head : forall i rest s part md groups b,
  appendToLastResultGroup_noReparse (i :: rest) s part md = Ok (groups, b) ->
  exists j tail, groups = j :: tail
    /\ (is_unknown j = true \/ Group_index (gi_group j) = Group_index (gi_group i))
    /\ gi_rawString j = gi_rawString i ++ (if b then String " " s else "").
Proof.
  intros i rest s part md groups b H; cbn [appendToLastResultGroup_noReparse] in H.
  assert (N : forall x : string, x ++ "" = x).
  { induction x as [|c x IH]; [reflexivity | cbn; rewrite IH; reflexivity]. }
  destruct (is_fallback (gi_group i)) eqn:F.
  { apply ok_pair_inj in H; destruct H as [-> ->]; exists i, rest; rewrite N; auto. }
  apply bind_ok in H; destruct H as ((g & a) & A & H).
  pose proof (append_index _ _ _ _ _ _ A) as Ix.
  destruct a; apply ok_pair_inj in H; destruct H as [-> ->].
  - eexists _, _; split; [reflexivity|]; cbn; rewrite ?N, ?Ix; auto.
  - eexists _, _; split; [reflexivity|]; cbn; rewrite ?N, ?Ix; auto.
  - unfold addGroupToResult; cbn [gi_group is_fallback andb].
    destruct (is_fallback g) eqn:G.
    + exfalso; destruct (fallback_unknown _ G) as [u ->].
      destruct (gi_group i); discriminate.
    + eexists _, _; split; [reflexivity|]; cbn; rewrite ?N; auto.
Qed.

Lemma invalidated_head : forall i rest s part md g groups b,
  is_unknown i = false ->
  Group_append (gi_group i) s part md = Ok (g, GROUP_INVALIDATED) ->
  appendToLastResultGroup (i :: rest) s part md = Ok (groups, b) ->
  exists j tail, groups = j :: tail
    /\ (is_unknown j = true \/ Group_index (gi_group j) <> Group_index (gi_group i)).
Proof.
  intros i rest s part md g groups b U A H; cbn [appendToLastResultGroup] in H.
  destruct (is_fallback (gi_group i)) eqn:F.
  { exfalso; destruct (fallback_unknown _ F) as [u E]; unfold is_unknown in U; rewrite E in U; discriminate. }
  apply bind_ok in H; destruct H as ((g1 & a1) & A1 & H).
  rewrite A in A1; apply ok_pair_inj in A1; destruct A1 as [-> ->].
  apply bind_ok in H; destruct H as (p & P & H).
  pose proof (append_index _ _ _ _ _ _ A) as Ix.
  destruct (is_fallback p) eqn:G.
  - apply ok_pair_inj in H; destruct H as [-> ->].
    destruct (fallback_unknown _ G) as [u ->].
    unfold addGroupToResult; destruct rest as [|k rest].
    + eexists _, _; split; [reflexivity | left; reflexivity].
    + cbn [is_fallback andb]; destruct (is_fallback (gi_group k)) eqn:K.
      * eexists _, _; split; [reflexivity|]; left; unfold is_unknown; cbn.
        destruct (fallback_unknown _ K) as [u' ->]; reflexivity.
      * eexists _, _; split; [reflexivity | left; reflexivity].
  - destruct (reparse_other_kind _ _ _ _ _ P) as [-> | Ne]; [discriminate G|].
    assert (X : addGroupToResult rest p (gi_reportPart i) (gi_rawString i)
                = mkGroupInfo p (gi_reportPart i) (gi_rawString i) :: rest).
    { unfold addGroupToResult; destruct rest; [reflexivity|]; rewrite G; reflexivity. }
    cbv zeta in H; rewrite X in H; apply noReparse_head in H; destruct H as (j & tail & -> & K & _).
    exists j, tail; split; [reflexivity|]; destruct K as [K|K]; [left; exact K | right].
    cbn in K; rewrite K, <- Ix; exact Ne.
Qed.
