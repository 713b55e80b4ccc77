(** C80: a smaller group limit cuts the result off. *)
From Coq Require Import Lia.
From Verif Require Import Prim Regex Float Values Weather Groups1 Groups2 Groups3 Groups4 Parser Lib
  SpecTokens SpecReads Pf_Tokens SpecText SpecAgain SpecLimit Pf_Ok SpecReach Pf_Total Pf_Steps Pf_Shape Pf_Limit Pf_Again.
Local Open Scope string_scope.

Lemma steps_higher : forall L L' used p, (L <= L')%nat -> Steps L used p -> isError (ps_status p) = false -> Steps L' used p.
Proof.
  intros L L' used p Le S; induction S as [|used p s q S IH Er E]; intros N; [constructor|].
  apply (Steps_snoc L' used p s q (IH Er) Er). apply (step_limit L L' s p q Le E).
  intros A. unfold isError in N. rewrite A in N. discriminate N.
Qed.
(** The last word read with the two limits *)
Lemma step_both : forall L L' s p q q', parse_step L s p = Ok q -> parse_step L' s p = Ok q' ->
  (length (ps_groups q) <= 1)%nat \/ settled (skipn 2 (ps_groups q)) (ps_groups q').
Proof.
  intros L L' s p q q' E E'. unfold parse_step in E, E'. cbv zeta in E, E'.
  apply bind_ok in E. destruct E as ([l b] & A & E). rewrite A in E'. cbn [bind] in E'.
  destruct b; cbn [negb] in E, E'.
  - destruct (count_group L _ _) as [n st]. destruct (count_group L' _ _) as [n' st']. injection E as <-. injection E' as <-. cbn [ps_groups].
    destruct l as [|x [|y K]]; [left; cbn; lia|left; cbn; lia|right]. exists [x; y]. split; [reflexivity|left; cbn; lia].
  - apply bind_ok in E. destruct E as ([[[g part] n] st] & _ & E). apply bind_ok in E. destruct E as (md & _ & E). injection E as <-.
    apply bind_ok in E'. destruct E' as ([[[g' part'] n'] st'] & _ & E'). apply bind_ok in E'. destruct E' as (md' & _ & E'). injection E' as <-. cbn [ps_groups].
    destruct l as [|i t]; cbn [addGroupToResult]; [left; cbn; lia|].
    destruct (is_fallback g && is_fallback (gi_group i)), (is_fallback g' && is_fallback (gi_group i)) eqn:F'; cbn [skipn].
    + destruct t as [|h t]; [left; cbn; lia|right]. eexists [_; h]. split; [reflexivity|left; cbn; lia].
    + destruct t as [|h t]; [left; cbn; lia|right]. eexists [_; i; h]. split; [reflexivity|left; cbn; lia].
    + right. eexists [_]. split; [reflexivity|right]. eexists. split; [reflexivity|]. apply andb_prop in F'. apply F'.
    + right. eexists [_; i]. split; [reflexivity|left; cbn; lia].
Qed.
Lemma read_higher : forall L L' used p, (L <= L')%nat -> Steps L used p ->
  used = [] \/ exists u s p0, used = (u ++ [s])%list /\ Steps L' u p0 /\ isError (ps_status p0) = false /\ parse_step L s p0 = Ok p.
Proof.
  intros L L' used p Le S. destruct S as [|used p s q S Er E]; [left; reflexivity|right].
  exists used, s, p. split; [reflexivity|]. split; [exact (steps_higher _ _ _ _ Le S Er)|auto].
Qed.
Theorem limit_cuts : forall sgn report L L' r r', (L <= L')%nat -> parse sgn report L = Ok r -> parse sgn report L' = Ok r' ->
  same_but_last 2 (pr_groups r) (pr_groups r').
Proof.
  intros sgn report L L' r r' Le E E'; destruct (parse_inv _ _ _ _ E) as (used & rest & p & T & S & R & Ee & F).
  destruct (result_few _ _ Ee) as (last & G & Few).
  rewrite parse_eq_parse_groups, T in E'; unfold parse_groups in E'. apply bind_ok in E'; destruct E' as (q & Q & Eq).
  destruct (read_higher _ _ _ _ Le S) as [->|(u & s & p0 & -> & S0 & Er & St)].
  { inversion S as [X|u p0 s q0 _ _ _ X]; [|destruct u; discriminate X]. subst p. cbn in G. exists [], (pr_groups r), (pr_groups r'). split; [reflexivity|]. split; [reflexivity|]. rewrite G. exact Few. }
  rewrite <- app_assoc, (steps_all _ _ _ S0) in Q. cbn [app step_all] in Q. rewrite Er in Q. apply bind_ok in Q. destruct Q as (q0 & Q0 & Q).
  destruct (step_both _ _ _ _ _ _ St Q0) as [Sm|Se].
  - exists [], (pr_groups r), (pr_groups r'). split; [reflexivity|]. split; [reflexivity|]. rewrite G.
    destruct (ps_groups p) as [|x [|y K]]; [exact Few|exact Few|cbn in Sm; lia].
  - destruct (settled_end _ _ _ Eq (settled_all _ _ _ _ _ Q Se)) as (last' & G').
    exists (rev (skipn 2 (ps_groups p))), last, last'. auto.
Qed.
Theorem limit_words : forall sgn report L L' r r', (L <= L')%nat -> parse sgn report L = Ok r -> parse sgn report L' = Ok r' ->
  exists more, words_of_result r' = (words_of_result r ++ more)%list.
Proof.
  intros sgn report L L' r r' Le E E'; destruct (parse_inv _ _ _ _ E) as (used & rest & p & T & S & R & Ee & F).
  rewrite (W_end _ _ Ee), (W_steps _ _ _ S F).
  destruct (read_higher _ _ _ _ Le S) as [->|(u & s & p0 & -> & S0 & Er & St)]; [exists (words_of_result r'); reflexivity|].
  rewrite parse_eq_parse_groups, T in E'; unfold parse_groups in E'. apply bind_ok in E'; destruct E' as (q & Q & Eq).
  rewrite <- app_assoc, (steps_all _ _ _ S0) in Q. cbn [app step_all] in Q. rewrite Er in Q. apply bind_ok in Q. destruct Q as (q0 & Q0 & Q).
  destruct (steps_of_step_all _ _ _ _ _ (Steps_snoc _ _ _ _ _ S0 Er Q0) Q) as (more & rest' & Er' & S' & _).
  rewrite (W_end _ _ Eq). exists more. apply (W_steps _ _ _ S').
  apply Forall_app. split; [exact F|]. subst rest.
  pose proof (report_tokens sgn report) as Tk. rewrite T in Tk. apply Forall_app in Tk. destruct Tk as [_ Tk]. apply Forall_app in Tk. apply Tk.
Qed.
