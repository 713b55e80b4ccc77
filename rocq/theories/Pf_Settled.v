(** Every group of the result has refused a word or the end of the report. *)
From Coq Require Import Lia.
From Verif Require Import Prim Lib Regex Float Values Weather Groups1 Groups2 Groups3 Groups4 Parser SpecTokens SpecReads SpecText
  SpecReach SpecBuilt Pf_Tokens Pf_Ok Pf_Caps Pf_Regex Pf_Total Pf_Steps Pf_Kinds Pf_View Pf_Fresh Pf_Words Pf_EndAppend Pf_Built.
Local Open Scope string_scope.

Definition settled (i : GroupInfo) : Prop :=
  gi_rawString i = "" \/ is_fallback (gi_group i) = true
  \/ exists g s part md, Reachable g /\ Group_append g s part md = Ok (gi_group i, NOT_APPENDED).
Definition tail_settled (l : list GroupInfo) : Prop := match l with [] => True | _ :: l' => Forall settled l' end.
Lemma add_settled : forall l g part s, Forall settled l -> tail_settled (addGroupToResult l g part s).
Proof.
  intros [|i l] g part s F; cbn [addGroupToResult]; [constructor|]. inv F.
  destruct (is_fallback g && is_fallback (gi_group i)); cbn; [assumption|constructor; assumption].
Qed.
Lemma add_unknown : forall l part s, Forall settled l -> Forall settled (addGroupToResult l (GUnknown mkUnknown) part s).
Proof.
  intros [|i l] part s F; cbn [addGroupToResult is_fallback andb]; [constructor; [right; left; reflexivity|constructor]|].
  inv F. destruct (is_fallback (gi_group i)) eqn:E; constructor; try assumption;
    [right; left; exact E|right; left; reflexivity|constructor; assumption].
Qed.
Lemma fallback_unknown : forall g, is_fallback g = true -> g = GUnknown mkUnknown.
Proof. intros g E; destruct g as [| | | | | | | | | | | | | | | | | | | | |u]; try discriminate E. destruct u. reflexivity. Qed.
Lemma settled_noReparse : forall i l s part md l' b, Reachable (gi_group i) -> Forall settled l ->
  appendToLastResultGroup_noReparse (i :: l) s part md = Ok (l', b) -> tail_settled l' /\ (b = false -> Forall settled l').
Proof.
  intros i l s part md l' b R F E. cbn [appendToLastResultGroup_noReparse] in E.
  destruct (is_fallback (gi_group i)) eqn:Fb; [injection E as <- <-; split; [exact F|intros _; constructor; [right; left; exact Fb|exact F]]|].
  apply bind_ok in E. destruct E as ([g a] & A & E). destruct a; apply ok_pair_inj in E; destruct E as [-> ->].
  - split; [exact F|discriminate].
  - split; [exact F|]. intros _. constructor; [|exact F]. right; right. exists (gi_group i), s, part, md. auto.
  - assert (X : Forall settled (mkGroupInfo g (gi_reportPart i) "" :: l)) by (constructor; [left; reflexivity|exact F]).
    split; [apply add_settled; exact X|]. intros _. apply add_unknown; exact X.
Qed.
Lemma settled_append : forall i l s part md l' b, Built (gi_reportPart i) (words_of (gi_rawString i)) (gi_group i) -> Forall settled l ->
  appendToLastResultGroup (i :: l) s part md = Ok (l', b) -> tail_settled l' /\ (b = false -> Forall settled l').
Proof.
  intros i l s part md l' b Bt F E. cbn [appendToLastResultGroup] in E. pose proof (built_reach _ _ _ Bt) as R.
  destruct (is_fallback (gi_group i)) eqn:Fb; [injection E as <- <-; split; [exact F|intros _; constructor; [right; left; exact Fb|exact F]]|].
  apply bind_ok in E. destruct E as ([g a] & A & E). destruct a.
  - apply ok_pair_inj in E; destruct E as [-> ->]. split; [exact F|discriminate].
  - apply ok_pair_inj in E; destruct E as [-> ->].
    split; [exact F|]. intros _. constructor; [|exact F]. right; right. exists (gi_group i), s, part, md. auto.
  - apply bind_ok in E. destruct E as (r & Rp & E). cbv zeta in E.
    destruct (is_fallback r) eqn:Fr.
    + apply ok_pair_inj in E; destruct E as [-> ->]. rewrite (fallback_unknown _ Fr).
      split; [apply add_settled; exact F|]. intros _. apply add_unknown; exact F.
    + assert (Ea : addGroupToResult l r (gi_reportPart i) (gi_rawString i) = mkGroupInfo r (gi_reportPart i) (gi_rawString i) :: l).
      { destruct l; cbn [addGroupToResult]; rewrite ?Fr; reflexivity. }
      rewrite Ea in E. eapply settled_noReparse; [|exact F|exact E]. cbn [gi_group].
      apply GroupParser_reparse_inv in Rp. destruct Rp as [-> |[P _]]; [discriminate Fr|]. exact (reach_parsed _ _ _ _ P).
Qed.
Lemma settled_steps : forall limit used p, Steps limit used p -> Forall token used -> tail_settled (ps_groups p).
Proof.
  intros limit. refine (steps_induction limit (fun used p => Forall token used -> tail_settled (ps_groups p)) _ _).
  - intros _. exact I.
  - intros used p s q S I Er E St Iq IH F. apply Forall_app in F. destruct F as [F1 F2]. inv F2.
    pose proof (IH F1) as T. destruct (good_steps _ _ _ S F1) as [G Tx].
    unfold parse_step in E. cbv zeta in E. apply bind_ok in E. destruct E as ([l b] & A & E).
    assert (X : tail_settled l /\ (b = false -> Forall settled l)).
    { destruct (ps_groups p) as [|i l0].
      - cbn in A. injection A as <- <-. split; [exact Logic.I|constructor].
      - destruct (Forall_inv G) as [X|X]; [contradiction|]. exact (settled_append i l0 s _ _ l b X T A). }
    destruct b; cbn [negb] in E.
    + destruct (count_group _ _ _) as [n st]; injection E as <-. apply X.
    + apply bind_ok in E; destruct E as ([[[g part] n] st] & L & E).
      apply bind_ok in E; destruct E as (md & _ & E); injection E as <-; cbn [ps_groups]. apply add_settled. apply X. reflexivity.
Qed.
Lemma end_refused : forall i l part md l' b, Built (gi_reportPart i) (words_of (gi_rawString i)) (gi_group i) ->
  appendToLastResultGroup (i :: l) "" part md = Ok (l', b) -> b = false.
Proof.
  intros i l part md l' b Bt E. cbn [appendToLastResultGroup] in E.
  destruct (is_fallback (gi_group i)) eqn:Fb; [injection E as <- <-; reflexivity|].
  apply bind_ok in E. destruct E as ([g a] & A & E). destruct a.
  - destruct (end_append _ _ _ _ Fb A).
  - apply ok_pair_inj in E; destruct E as [-> ->]. reflexivity.
  - apply bind_ok in E. destruct E as (r & Rp & E). cbv zeta in E.
    destruct (is_fallback r) eqn:Fr; [apply ok_pair_inj in E; destruct E as [-> ->]; reflexivity|].
    assert (Ea : addGroupToResult l r (gi_reportPart i) (gi_rawString i) = mkGroupInfo r (gi_reportPart i) (gi_rawString i) :: l).
    { destruct l; cbn [addGroupToResult]; rewrite ?Fr; reflexivity. }
    rewrite Ea in E. cbn [appendToLastResultGroup_noReparse gi_group] in E. rewrite Fr in E.
    apply bind_ok in E. destruct E as ([g2 a] & A2 & E). destruct a; [destruct (end_append _ _ _ _ Fr A2)|..];
      apply ok_pair_inj in E; destruct E as [-> ->]; reflexivity.
Qed.
Lemma result_settled : forall sgn report limit r, parse sgn report limit = Ok r -> Forall settled (pr_groups r).
Proof.
  intros sgn report limit r E; destruct (parse_inv _ _ _ _ E) as (used & rest & p & T & S & R & Ee & F).
  destruct (good_steps _ _ _ S F) as [G Tx]. pose proof (settled_steps _ _ _ S F) as Ts.
  apply parse_end_inv in Ee. destruct Ee as (l & Gr & _ & C). rewrite Gr. apply Forall_rev.
  destruct C as [[_ ->]|(l' & b & N & A & j & l0 & -> & ->)]; [constructor|].
  destruct (ps_groups p) as [|k l1] eqn:Eg; [congruence|].
  destruct (Forall_inv G) as [X|X]; [contradiction|].
  destruct (settled_append _ _ _ _ _ _ _ X Ts A) as [_ Y]. specialize (Y (end_refused _ _ _ _ _ _ X A)).
  destruct (sempty (gi_rawString j)); [inv Y; assumption|exact Y].
Qed.
