(** The warning about invalid data stands before the explanations of the groups which are not valid (C69). *)
From Coq Require Import Lia NArith List String.
Import ListNotations.
From Verif Require Import Prim Lib Float Values Weather Groups1 Groups2 Groups3 Groups4 Parser Summary Format Explain SpecExplain.
Local Open Scope string_scope.

(** [a] differs from [m] before the end of either. *)
Fixpoint differs (a m : string) : bool :=
  match a, m with
  | String c a', String d m' => if Ascii.eqb c d then differs a' m' else true
  | _, _ => false
  end.
Lemma differs_app : forall a m b, differs a m = true -> differs (a ++ b) m = true.
Proof. induction a as [|c a IH]; intros [|d m] b H; try discriminate H. cbn in *. destruct (Ascii.eqb c d); auto. Qed.
Lemma differs_prefix : forall m s, differs s m = true -> prefix m s = false.
Proof.
  induction m as [|d m IH]; intros [|c s] H; try discriminate H. cbn in *. destruct (ascii_dec d c) as [<-|]; [|reflexivity].
  rewrite Ascii.eqb_refl in H. exact (IH _ H).
Qed.
Definition other (r : res string) : Prop := forall s, r = Ok s -> differs s groupNotValidMessage = true.
Lemma other_put : forall s, differs s groupNotValidMessage = true -> other (put s).
Proof. intros s H t E. injection E as <-. exact H. Qed.
Lemma other_line : forall s, other (line s).
Proof. intros s t E. injection E as <-. reflexivity. Qed.
Lemma other_cons : forall r l, other r -> other (say (r :: l)).
Proof.
  intros r l H s E. cbn [say] in E. destruct r as [a|]; [|discriminate E]. cbn [bind] in E. destruct (say l) as [b|]; [|discriminate E]. cbn [bind] in E.
  injection E as <-. apply differs_app. exact (H a eq_refl).
Qed.
Lemma other_skip : forall l, other (say l) -> other (say (put "" :: l)).
Proof.
  intros l H s E. cbn [say put bind] in E. destruct (say l) as [b|] eqn:B; [|discriminate E]. injection E as <-. exact (H b eq_refl).
Qed.
Lemma other_bind : forall (A : Type) (m : res A) k, (forall x, other (k x)) -> other (bind m k).
Proof. intros A [x|] k H s E; [exact (H x s E)|discriminate E]. Qed.
Ltac ot := repeat first
  [ match goal with |- other (put "") => fail 2 end
  | match goal with |- other (put _) => apply other_put; reflexivity end
  | match goal with |- other (line _) => apply other_line end
  | match goal with |- other (say (put "" :: _)) => apply other_skip end
  | match goal with |- other (say (_ :: _)) => apply other_cons end
  | match goal with |- other (if ?b then _ else _) => destruct b end
  | match goal with |- other (match ?o with _ => _ end) => destruct o end
  | match goal with |- other (let! _ := _ in _) => apply other_bind; intros ? end ].
Definition told (v : bool) (r : res string) : Prop := forall s, r = Ok s -> prefix groupNotValidMessage s = negb v.
Lemma prefix_self : forall p b, prefix p (p ++ b) = true.
Proof. induction p as [|c p IH]; intros b; [destruct b; reflexivity|]. cbn. destruct (ascii_dec c c); [apply IH|congruence]. Qed.
Lemma told_say : forall v l, other (say l) -> told v (say (validity v :: l)).
Proof.
  intros v l H s E. cbn [say] in E. unfold validity in E. destruct v; cbn [bind] in E; (destruct (say l) as [b|] eqn:B; [|discriminate E]).
  - injection E as <-. cbn [negb]. apply differs_prefix. exact (H b eq_refl).
  - cbn [bind] in E. assert (X : s = groupNotValidMessage ++ (String "010" b)) by (injection E as <-; reflexivity). subst s. apply prefix_self.
Qed.
Theorem validity_told : forall pow g part raw s, Visitor_visit (Ok "") (VisitorExplain pow) g part raw = Ok s ->
  exists v, Group_isValid g = Ok v /\ prefix groupNotValidMessage s = negb v.
Proof.
  intros pow g part raw s H. destruct g; cbn [Visitor_visit Visitor_calls VisitorExplain] in H; cbn [Group_isValid];
    try (eexists; split; [reflexivity|]; revert s H; apply told_say; unfold explainCloudType; ot; fail).
  - eexists; split; [reflexivity|]; revert s H; apply told_say. destruct (cl_tp g) eqn:E; try (ot; fail).
    + apply other_cons. apply other_put. destruct (cl_amnt g); reflexivity.
    + apply other_cons. unfold CloudGroup_cloudType. rewrite E. destruct (Distance_distance _); [ot|].
      apply other_skip. apply other_cons. unfold explainCloudType. apply other_cons. apply other_put. destruct (ctTp _); reflexivity.
  - change (visit_Weather g part raw = Ok s) in H. unfold visit_Weather in H. destruct (WeatherGroup_isValid g) as [v|]; [|discriminate H]. exists v. split; [reflexivity|]. cbn [bind] in H.
    revert s H. apply told_say. ot.
  - eexists; split; [reflexivity|]; revert s H; apply told_say. apply other_cons, other_put. destruct (lf_type g); reflexivity.
Qed.
