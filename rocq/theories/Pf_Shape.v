(** How many groups there are and where the groups without text are (C06-C08). *)
From Verif Require Import Prim Regex Float Values Weather Groups1 Groups2 Groups3 Groups4 Parser Lib
  SpecTokens SpecReads Pf_Tokens SpecText Pf_Ok SpecReach Pf_Total Pf_Steps Pf_Kinds Pf_View Pf_Fresh.
Local Open Scope string_scope.

Definition has_text (i : GroupInfo) : Prop := words_of (gi_rawString i) <> [].
Definition head_not_unknown (l : list GroupInfo) : Prop :=
  match l with i :: _ => is_fallback (gi_group i) = false | [] => True end.
(** The groups so far, last one first *)
Inductive Shape : list GroupInfo -> Prop :=
| Shape_nil : Shape []
| Shape_text : forall i l, has_text i -> (is_fallback (gi_group i) = true -> head_not_unknown l) ->
    Shape l -> Shape (i :: l)
| Shape_ghost : forall u i l, is_fallback (gi_group u) = true -> has_text u ->
    is_fallback (gi_group i) = false -> gi_rawString i = "" -> Shape l -> Shape (u :: i :: l).

Lemma has_text_app : forall (g : Group) p a b, words_of a <> [] ->
  has_text (mkGroupInfo g p (a ++ String " " b)).
Proof. intros g p a b H; unfold has_text; cbn; rewrite words_app; destruct (words_of a); [congruence | discriminate]. Qed.

Lemma shape_head : forall i l, Shape (i :: l) -> has_text i.
Proof. intros i l H; inversion H; assumption. Qed.
Lemma shape_tail : forall i l, Shape (i :: l) -> is_fallback (gi_group i) = false -> Shape l.
Proof. intros i l H N; inversion H; [assumption | congruence]. Qed.

Lemma shape_add : forall l g part s, Shape l -> words_of s <> [] -> Shape (addGroupToResult l g part s).
Proof.
  intros [|i l] g part s H N; cbn [addGroupToResult].
  - constructor; [exact N | intros _; exact I | constructor].
  - destruct (is_fallback g && is_fallback (gi_group i)) eqn:E.
    + inversion H; subst; [apply Shape_text | apply Shape_ghost]; auto;
        apply has_text_app; assumption.
    + apply Shape_text; [exact N | | exact H].
      cbn; intros G; rewrite G in E; exact E.
Qed.
Lemma append_fallback : forall g s part md g' a,
  Group_append g s part md = Ok (g', a) -> is_fallback g' = is_fallback g.
Proof.
  intros g s part md g' a H; apply appended_inv in H; destruct g, g'; try contradiction; reflexivity.
Qed.
Lemma shape_noReparse : forall l s part md l' b, Shape l ->
  appendToLastResultGroup_noReparse l s part md = Ok (l', b) -> Shape l'.
Proof.
  intros [|i l] s part md l' b H E; cbn [appendToLastResultGroup_noReparse] in E.
  - injection E as <- <-; exact H.
  - destruct (is_fallback (gi_group i)) eqn:F; [injection E as <- <-; exact H|].
    apply bind_ok in E; destruct E as ([g a] & A & E); apply append_fallback in A; rewrite F in A.
    pose proof (shape_head _ _ H) as T; pose proof (shape_tail _ _ H F) as Sl.
    destruct a; apply ok_pair_inj in E; destruct E as [-> ->].
    + apply Shape_text; [apply has_text_app, T | cbn; congruence | exact Sl].
    + apply Shape_text; [exact T | cbn; congruence | exact Sl].
    + cbn [addGroupToResult gi_group]; rewrite A; cbn [andb is_fallback].
      apply Shape_ghost; auto.
Qed.
Lemma shape_appendToLast : forall l s part md l' b, Shape l ->
  appendToLastResultGroup l s part md = Ok (l', b) -> Shape l'.
Proof.
  intros [|i l] s part md l' b H E; cbn [appendToLastResultGroup] in E.
  - injection E as <- <-; exact H.
  - destruct (is_fallback (gi_group i)) eqn:F; [injection E as <- <-; exact H|].
    apply bind_ok in E; destruct E as ([g a] & A & E); apply append_fallback in A; rewrite F in A.
    pose proof (shape_head _ _ H) as T; pose proof (shape_tail _ _ H F) as Sl.
    destruct a.
    + apply ok_pair_inj in E; destruct E as [-> ->].
      apply Shape_text; [apply has_text_app, T | cbn; congruence | exact Sl].
    + apply ok_pair_inj in E; destruct E as [-> ->].
      apply Shape_text; [exact T | cbn; congruence | exact Sl].
    + apply bind_ok in E; destruct E as (g' & _ & E); cbv zeta in E.
      pose proof (shape_add l g' (gi_reportPart i) _ Sl T) as Sa.
      destruct (is_fallback g'); [apply ok_pair_inj in E; destruct E as [-> ->]; exact Sa|].
      eapply shape_noReparse; [exact Sa | exact E].
Qed.
Lemma shape_steps : forall limit used p, Steps limit used p -> Forall token used -> Shape (ps_groups p).
Proof.
  intros limit used p H; induction H as [|used p s q H IH Er E]; intros F; [constructor|].
  apply Forall_app in F; destruct F as [F1 F2]; inv F2; specialize (IH F1).
  assert (T : words_of s <> []) by (rewrite words_token by assumption; discriminate).
  unfold parse_step in E; cbv zeta in E.
  apply bind_ok in E; destruct E as ([l b] & A & E); apply shape_appendToLast in A; [|exact IH].
  destruct b; cbn [negb] in E.
  - destruct (count_group _ _ _) as [n st]; injection E as <-; exact A.
  - apply bind_ok in E; destruct E as ([[[g part] n] st] & _ & E).
    apply bind_ok in E; destruct E as (md & _ & E); injection E as E; subst q; cbn [ps_groups].
    apply shape_add; assumption.
Qed.

Lemma sempty_words : forall s, sempty s = true -> words_of s = [].
Proof. intros s H; apply sempty_true in H; subst; reflexivity. Qed.

(** Nothing is dropped at the end *)
Lemma end_shape : forall limit used p r, Steps limit used p -> Forall token used -> parse_end p = Ok r ->
  Shape (rev (pr_groups r)) /\ V (rev (pr_groups r)) = V (ps_groups p).
Proof.
  intros limit used p r S F E; pose proof (shape_steps _ _ _ S F) as Sh.
  pose proof (steps_inv _ _ _ S) as I.
  apply parse_end_inv in E; destruct E as (l & G & _ & C); rewrite G, rev_involutive.
  destruct C as [[-> ->]|(l' & b & N & A & i & l0 & -> & ->)]; [split; [constructor | reflexivity]|].
  pose proof (shape_appendToLast _ _ _ _ _ _ Sh A) as Sh'.
  apply appendToLast_view in A; [|apply I..]; destruct A as [Av _].
  destruct (sempty (gi_rawString i)) eqn:Z; [|split; assumption].
  apply shape_head in Sh'; apply sempty_words in Z; contradiction.
Qed.

(** ** Consequences *)

Lemma shape_no_adjacent : forall l, Shape l -> no_two_adjacent is_unknown l.
Proof.
  assert (U : forall i, is_unknown i = is_fallback (gi_group i)) by (intros i; reflexivity).
  intros l H; induction H as [|i l T A S IH|u i l F T N R S IH]; [exact I|..].
  - destruct l as [|j l]; [exact I|]; split; [|exact IH].
    rewrite !U; intros [X Y]; specialize (A X); cbn in A; congruence.
  - split; [rewrite !U; intros [X Y]; congruence|].
    destruct l as [|j l]; [exact I|]; split; [rewrite !U; intros [X Y]; congruence | exact IH].
Qed.
Lemma no_two_adjacent_app : forall (A : Type) (p : A -> bool) l x,
  no_two_adjacent p (l ++ [x]) <-> no_two_adjacent p l /\ match rev l with y :: _ => ~ (p y = true /\ p x = true) | [] => True end.
Proof.
  intros A p; induction l as [|a l IH]; intros x; [cbn; tauto|].
  destruct l as [|b l]; [cbn; tauto|].
  cbn [app rev] in *.
  specialize (IH x); cbn [no_two_adjacent] in IH |- *; rewrite IH.
  assert (E : exists z zs, (rev l ++ [b])%list = z :: zs) by (destruct (rev l); cbn; eauto).
  destruct E as (z & zs & E); rewrite E; cbn [app]; tauto.
Qed.
Lemma no_two_adjacent_rev : forall (A : Type) (p : A -> bool) l,
  no_two_adjacent p l -> no_two_adjacent p (rev l).
Proof.
  intros A p; induction l as [|a l IH]; intros H; [exact I|].
  cbn [rev]; apply no_two_adjacent_app; rewrite rev_involutive.
  destruct l as [|b l]; [cbn; auto|]; destruct H as [H1 H2]; split; [apply IH, H2 | tauto].
Qed.
Lemma unknown_merged : forall sgn report limit r, parse sgn report limit = Ok r ->
  no_two_adjacent is_unknown (pr_groups r).
Proof.
  intros sgn report limit r E; destruct (parse_inv _ _ _ _ E) as (used & rest & p & T & S & R & Ee & F).
  destruct (end_shape _ _ _ _ S F Ee) as [Sh _].
  rewrite <- (rev_involutive (pr_groups r)); apply no_two_adjacent_rev, shape_no_adjacent, Sh.
Qed.

Lemma W_length : forall i l, length (W (i :: l)) = (length (W l) + length (words_of (gi_rawString i)))%nat.
Proof. intros; rewrite W_cons, app_length; reflexivity. Qed.
Lemma has_text_length : forall i, has_text i -> (1 <= length (words_of (gi_rawString i)))%nat.
Proof. intros i H; unfold has_text in H; destruct (words_of _); [congruence | cbn; lia]. Qed.
Lemma shape_length : forall l, Shape l -> (length l <= 2 * length (W l))%nat.
Proof.
  intros l H; induction H as [|i l T A S IH|u i l F T N R S IH]; [cbn; lia|..]; rewrite ?W_length.
  - apply has_text_length in T; cbn [length]; lia.
  - apply has_text_length in T; cbn [length]; lia.
Qed.
Lemma result_size : forall sgn report limit r, parse sgn report limit = Ok r ->
  (length (pr_groups r) <= 2 * length (words_of_result r))%nat.
Proof.
  intros sgn report limit r E; destruct (parse_inv _ _ _ _ E) as (used & rest & p & T & S & R & Ee & F).
  destruct (end_shape _ _ _ _ S F Ee) as [Sh _].
  apply shape_length in Sh; rewrite rev_length in Sh.
  unfold words_of_result; unfold W in Sh; rewrite rev_involutive in Sh; exact Sh.
Qed.

(** A group without text is followed by an unknown group with text *)
Lemma shape_empty : forall l n i, Shape l -> nth_error l n = Some i -> gi_rawString i = "" ->
  exists m u, n = S m /\ nth_error l m = Some u /\ is_unknown u = true /\ has_text u.
Proof.
  intros l n i H; revert n; induction H as [|j l T A Hs IH|u j l F T N R Hs IH]; intros n E Z.
  - destruct n; discriminate.
  - destruct n as [|n]; cbn in E.
    + injection E as ->; unfold has_text in T; rewrite Z in T; exfalso; apply T; reflexivity.
    + destruct (IH n E Z) as (m & u & -> & X & Y); exists (S m), u; auto.
  - destruct n as [|[|n]]; cbn in E.
    + injection E as ->; unfold has_text in T; rewrite Z in T; exfalso; apply T; reflexivity.
    + exists 0%nat, u; auto.
    + destruct (IH n E Z) as (m & v & -> & X & Y); exists (S (S m)), v; auto.
Qed.
Lemma shape_text : forall l i, Shape l -> In i l -> gi_rawString i = "" \/ has_text i.
Proof.
  intros l i H; induction H as [|j l T A S IH|u j l F T N R S IH]; intros I; [contradiction|..].
  - destruct I as [<- |I]; auto.
  - destruct I as [<- |[<- |I]]; auto.
Qed.
Lemma nth_rev : forall (A : Type) (l : list A) n x, nth_error (rev l) n = Some x ->
  (n < length l)%nat /\ nth_error l (length l - 1 - n) = Some x.
Proof.
  intros A; induction l as [|a l IH]; intros n x H; [destruct n; discriminate|].
  cbn [rev] in H.
  assert (L : (n < length (rev l ++ [a]))%nat) by (apply nth_error_Some; congruence).
  rewrite app_length, rev_length in L; cbn in L; split; [cbn; lia|].
  destruct (Nat.eq_dec n (length l)) as [->|Ne].
  - rewrite nth_error_app2 in H by (rewrite rev_length; lia).
    rewrite rev_length, Nat.sub_diag in H; injection H as ->.
    replace (length (x :: l) - 1 - length l)%nat with 0%nat by (cbn; lia); reflexivity.
  - rewrite nth_error_app1 in H by (rewrite rev_length; lia).
    destruct (IH _ _ H) as [L2 E2].
    replace (length (a :: l) - 1 - n)%nat with (S (length l - 1 - n)) by (cbn; lia); exact E2.
Qed.
Lemma empty_before_unknown : forall sgn report limit r n i, parse sgn report limit = Ok r ->
  nth_error (pr_groups r) n = Some i -> words_of (gi_rawString i) = [] ->
  exists u, nth_error (pr_groups r) (S n) = Some u /\ is_unknown u = true /\ words_of (gi_rawString u) <> [].
Proof.
  intros sgn report limit r n i E Hn Hw; destruct (parse_inv _ _ _ _ E) as (used & rest & p & T & S & R & Ee & F).
  destruct (end_shape _ _ _ _ S F Ee) as [Sh _].
  assert (Z : gi_rawString i = "").
  { destruct (shape_text _ i Sh) as [X|X]; [rewrite <- in_rev; eapply nth_error_In; exact Hn | exact X |].
    unfold has_text in X; congruence. }
  rewrite <- (rev_involutive (pr_groups r)) in Hn; apply nth_rev in Hn; destruct Hn as [L Hn].
  destruct (shape_empty _ _ _ Sh Hn Z) as (m & u & Em & Hu & U & Tu).
  exists u; split; [|auto]; apply nth_rev in Hu; destruct Hu as [Lu Hu].
  rewrite rev_length in *; rewrite <- Hu; f_equal; lia.
Qed.
