(** The groups that matter for the syntax and the metadata keep their text. *)
From Verif Require Import Prim Regex Float Values Weather Groups1 Groups2 Groups3 Groups4 Parser Lib
  SpecTokens SpecReads Pf_Tokens SpecText Pf_Ok SpecReach Pf_Total Pf_Steps Pf_Kinds Pf_View Pf_Fresh Pf_Shape.
Local Open Scope string_scope.

Definition is_active (i : GroupInfo) : bool := active (gi_group i).
Definition acts (l : list GroupInfo) : list GroupInfo := filter is_active l.

Lemma acts_cons : forall i l, acts (i :: l) = if active (gi_group i) then i :: acts l else acts l.
Proof. reflexivity. Qed.
Lemma fallback_passive : forall g, is_fallback g = true -> active g = false.
Proof. intros g; destruct g; try discriminate; reflexivity. Qed.
Lemma acts_add : forall l g part s,
  acts (addGroupToResult l g part s) = if active g then mkGroupInfo g part s :: acts l else acts l.
Proof.
  intros [|i l] g part s; cbn [addGroupToResult]; [reflexivity|].
  destruct (is_fallback g && is_fallback (gi_group i)) eqn:E; [|reflexivity].
  apply andb_prop in E; destruct E as [E1 E2]; rewrite !acts_cons; cbn [gi_group].
  rewrite (fallback_passive _ E1), (fallback_passive _ E2); reflexivity.
Qed.
Lemma acts_noReparse : forall l s part md l' b, all_reachable l ->
  appendToLastResultGroup_noReparse l s part md = Ok (l', b) -> acts l' = acts l.
Proof.
  intros [|i l] s part md l' b R E; cbn [appendToLastResultGroup_noReparse] in E.
  - injection E as <- <-; reflexivity.
  - destruct (is_fallback (gi_group i)) eqn:F; [injection E as <- <-; reflexivity|].
    apply bind_ok in E; destruct E as ([g a] & A & E).
    assert (R1 := Forall_inv R).
    destruct (active (gi_group i)) eqn:Ac.
    + rewrite active_append in A by assumption; apply ok_pair_inj in A; destruct A as [-> ->].
      apply ok_pair_inj in E; destruct E as [-> ->]; destruct i; reflexivity.
    + pose proof (passive_append _ _ _ _ _ _ R1 Ac A) as Ag.
      destruct a; apply ok_pair_inj in E; destruct E as [-> ->]; rewrite ?acts_add, !acts_cons; cbn [gi_group active];
        rewrite Ac, Ag; reflexivity.
Qed.
Lemma acts_appendToLast : forall l s part md l' b, all_reachable l -> last_inv l ->
  appendToLastResultGroup l s part md = Ok (l', b) -> acts l' = acts l.
Proof.
  intros [|i l] s part md l' b R L E; cbn [appendToLastResultGroup] in E.
  - injection E as <- <-; reflexivity.
  - destruct (is_fallback (gi_group i)) eqn:F; [injection E as <- <-; reflexivity|].
    apply bind_ok in E; destruct E as ([g a] & A & E).
    assert (R1 := Forall_inv R); assert (R2 := Forall_inv_tail R).
    destruct (active (gi_group i)) eqn:Ac.
    + rewrite active_append in A by assumption; apply ok_pair_inj in A; destruct A as [-> ->].
      apply ok_pair_inj in E; destruct E as [-> ->]; destruct i; reflexivity.
    + pose proof (passive_append _ _ _ _ _ _ R1 Ac A) as Ag.
      destruct a; [apply ok_pair_inj in E; destruct E as [-> ->]; rewrite !acts_cons; cbn [gi_group]; rewrite Ac, Ag; reflexivity..|].
      destruct (passive_invalidated _ _ _ _ _ R1 A) as (_ & Ix & _).
      apply bind_ok in E; destruct E as (g' & G & E); cbv zeta in E.
      assert (Rg : Reachable g').
      { pose proof (ok_GroupParser_reparse (gi_rawString i) (gi_reportPart i) md g) as O; rewrite G in O; exact O. }
      apply GroupParser_reparse_inv in G; rewrite (append_index _ _ _ _ _ _ A) in G.
      assert (Ap : active g' = false).
      { destruct L as [L|[L|[md0 L]]]; [congruence|..].
        - exact (passive_reparsed _ _ md md _ _ (or_introl L) Ix G).
        - exact (passive_reparsed _ _ md md0 _ _ (or_intror L) Ix G). }
      assert (Va : acts (addGroupToResult l g' (gi_reportPart i) (gi_rawString i)) = acts (i :: l)).
      { rewrite acts_add, acts_cons, Ap, Ac; reflexivity. }
      destruct (is_fallback g').
      * apply ok_pair_inj in E; destruct E as [-> ->]; exact Va.
      * apply acts_noReparse in E; [rewrite E; exact Va | apply addGroup_reach; assumption].
Qed.

(** Each of them is the last word read, as parsed. *)
Definition parsed_from (i : GroupInfo) : Prop :=
  exists md, GroupParser_parse (gi_rawString i) (gi_reportPart i) md = Ok (gi_group i).
Definition Acts (used : list string) (l : list GroupInfo) : Prop :=
  forall i, In i (acts l) -> parsed_from i /\ In (gi_rawString i) used.
Lemma acts_steps : forall limit used p, Steps limit used p -> Acts used (ps_groups p).
Proof.
  intros limit; apply (steps_induction limit (fun used p => Acts used (ps_groups p))).
  - intros i [].
  - intros used p s q _ Ip Er E St Iq IH i Hi.
    assert (Weak : forall j, In j (acts (ps_groups p)) -> parsed_from j /\ In (gi_rawString j) (used ++ [s])%list).
    { intros j Hj; destruct (IH j Hj) as [A B]; split; [exact A | apply in_or_app; left; exact B]. }
    unfold parse_step in E; cbv zeta in E.
    apply bind_ok in E; destruct E as ([l b] & A & E); apply acts_appendToLast in A; [|apply Ip..].
    destruct b; cbn [negb] in E.
    + destruct (count_group _ _ _) as [n st]; injection E as <-; cbn [ps_groups] in Hi; rewrite A in Hi; auto.
    + apply bind_ok in E; destruct E as ([[[g part] n] st] & G & E).
      apply bind_ok in E; destruct E as (md & _ & E); injection E as E; subst q; cbn [ps_groups] in Hi.
      rewrite acts_add, A in Hi; destruct (active g); [|auto]; destruct Hi as [<- |Hi]; [|auto].
      cbn [gi_rawString gi_reportPart gi_group]; split; [|apply in_or_app; right; left; reflexivity].
      apply loop_fresh in G; [|apply Ip; exact Er|exact Er]; destruct G as (st0 & n0 & G & _).
      apply fresh_parse in G; eexists; exact G.
Qed.
Lemma acts_end : forall limit used p r, Steps limit used p -> Forall token used -> parse_end p = Ok r ->
  acts (rev (pr_groups r)) = acts (ps_groups p).
Proof.
  intros limit used p r S F E; pose proof (shape_steps _ _ _ S F) as Sh.
  pose proof (steps_inv _ _ _ S) as I.
  apply parse_end_inv in E; destruct E as (l & G & _ & C); rewrite G, rev_involutive.
  destruct C as [[-> ->]|(l' & b & N & A & i & l0 & -> & ->)]; [reflexivity|].
  pose proof (shape_appendToLast _ _ _ _ _ _ Sh A) as Sh'.
  apply acts_appendToLast in A; [|apply I..].
  destruct (sempty (gi_rawString i)) eqn:Z; [|exact A].
  apply shape_head in Sh'; apply sempty_words in Z; contradiction.
Qed.
