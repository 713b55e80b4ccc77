(** Total correctness of computations in the outcome monad: [ok m P] says that [m] returns
    normally with a value satisfying [P]. *)
From Verif Require Import Prim Lib.
Local Open Scope string_scope.

Definition ok {A : Type} (m : res A) (P : A -> Prop) : Prop :=
  match m with Ok a => P a | Bad _ => False end.

Lemma ok_bind : forall (A B : Type) (m : res A) (k : A -> res B) (P : B -> Prop),
  ok m (fun a => ok (k a) P) -> ok (bind m k) P.
Proof. intros A B [a|e] k P H; exact H. Qed.
Lemma ok_mono : forall (A : Type) (m : res A) (P Q : A -> Prop),
  ok m P -> (forall a, P a -> Q a) -> ok m Q.
Proof. intros A [a|e] P Q H HPQ; [apply HPQ; exact H | exact H]. Qed.
(** Like [ok_mono], also remembering the result. *)
Lemma ok_mono_eq : forall (A : Type) (m : res A) (P Q : A -> Prop),
  ok m P -> (forall a, m = Ok a -> P a -> Q a) -> ok m Q.
Proof. intros A [a|e] P Q H HPQ; [apply HPQ; [reflexivity | exact H] | exact H]. Qed.
Lemma ok_intro : forall (A : Type) (m : res A) (P : A -> Prop) a, m = Ok a -> P a -> ok m P.
Proof. intros A m P a -> H; exact H. Qed.
Lemma ok_elim : forall (A : Type) (m : res A) (P : A -> Prop), ok m P -> exists a, m = Ok a /\ P a.
Proof. intros A [a|e] P H; [eauto | contradiction]. Qed.
Lemma ok_true : forall (A : Type) (m : res A) (P : A -> Prop), ok m P -> ok m (fun _ => True).
Proof. intros A m P H; eapply ok_mono; eauto. Qed.
Lemma ok_total : forall (A : Type) (m : res A) (P : A -> Prop), ok m P -> total m.
Proof. intros A [a|e] P H; [exists a; reflexivity | contradiction]. Qed.
Lemma total_ok_true : forall (A : Type) (m : res A), total m -> ok m (fun _ => True).
Proof. intros A m [a ->]; exact I. Qed.
(** A computation already known to return can be used with what it returned. *)
Lemma ok_known : forall (A : Type) (m : res A) (P : A -> Prop),
  ok m (fun _ => True) -> (forall a, m = Ok a -> P a) -> ok m P.
Proof. intros A [a|e] P H HP; [apply HP; reflexivity | exact H]. Qed.

Create HintDb okdb.

Lemma ok_sget : forall s i (P : ascii -> Prop), i <= slen s -> (forall c, P c) -> ok (sget s i) P.
Proof. intros s i P H HP; destruct (total_sget s i H) as [c ->]; apply HP. Qed.
Lemma ok_substr : forall s p n (P : string -> Prop),
  p <= slen s -> P (substring p n s) -> ok (substr s p n) P.
Proof.
  intros s p n P H HP; unfold substr; rewrite (proj2 (Nat.leb_le _ _) H); exact HP.
Qed.
Lemma ok_substr_from : forall s p (P : string -> Prop),
  p <= slen s -> P (substring p (slen s) s) -> ok (substr_from s p) P.
Proof. intros s p P H HP; apply ok_substr; assumption. Qed.
Lemma substring_from : forall p s, substring p (slen s) s = sdrop p s.
Proof.
  intros p s; rewrite substring_sdrop.
  assert (G : forall n t, slen t <= n -> substring 0 n t = t).
  { clear; induction n as [|n IH]; intros [|c t] H; cbn in *; try reflexivity; try slia.
    f_equal; apply IH; slia. }
  apply G; rewrite sdrop_len; lia.
Qed.

(** Splits the goal [ok m P] along the structure of [m]. *)
Ltac ok_step :=
  lazymatch goal with
  | |- ok (bind _ _) _ => apply ok_bind
  | |- ok (Ok _) _ => cbn [ok]
  | |- ok (if ?b then _ else _) _ => let E := fresh "E" in destruct b eqn:E
  | |- ok (match ?o with _ => _ end) _ =>
      let E := fresh "E" in destruct o eqn:E
  | |- forall _, _ => intro
  | |- True => exact I
  | |- ok (let x := _ in _) _ => cbv zeta
  | |- ok _ _ => solve [auto with okdb nocore]
      || (eapply ok_mono; [solve [auto with okdb nocore] | cbv beta; intros])
      || (apply ok_sget; [first [slia | solve [auto]] | intros ])
      || (apply ok_substr; [first [slia | solve [auto]] | ])
      || (apply ok_substr_from; [first [slia | solve [auto]] | ])
  end.
Ltac ok_auto := repeat ok_step.
