(** General lemmas and tactics used by the proofs. *)
From Coq Require Export Lia ZifyBool ZifyNat ZifyN.
From Verif Require Import Prim.
Local Open Scope string_scope.

Ltac inv H := inversion H; subst; clear H.
Ltac slia := unfold slen in *; cbn [String.length] in *; lia.

(** ** Outcomes *)

Definition total {A : Type} (m : res A) : Prop := exists a, m = Ok a.

Lemma total_ok : forall (A : Type) (a : A), total (Ok a).
Proof. intros A a; exists a; reflexivity. Qed.

Lemma total_bind : forall (A B : Type) (m : res A) (k : A -> res B),
  total m -> (forall a, m = Ok a -> total (k a)) -> total (bind m k).
Proof. intros A B m k [a Ha] Hk; rewrite Ha; simpl; auto. Qed.

Lemma bind_ok : forall (A B : Type) (m : res A) (k : A -> res B) (b : B),
  bind m k = Ok b -> exists a, m = Ok a /\ k a = Ok b.
Proof. intros A B m k b H; destruct m as [a|e]; simpl in H; [eauto | discriminate]. Qed.

Lemma bind_assoc : forall (A B C : Type) (m : res A) (k : A -> res B) (l : B -> res C),
  bind (bind m k) l = bind m (fun a => bind (k a) l).
Proof. intros A B C m k l; destruct m; reflexivity. Qed.

Lemma total_if : forall (A : Type) (b : bool) (x y : res A),
  (b = true -> total x) -> (b = false -> total y) -> total (if b then x else y).
Proof. intros A b x y Hx Hy; destruct b; auto. Qed.

(** ** Strings *)

Lemma seqb_eq : forall a b, seqb a b = true -> a = b.
Proof. intros a b H; apply String.eqb_eq; exact H. Qed.
Lemma seqb_neq : forall a b, seqb a b = false -> a <> b.
Proof. intros a b H; apply String.eqb_neq; exact H. Qed.
Lemma seqb_refl : forall a, seqb a a = true.
Proof. intros a; apply String.eqb_refl. Qed.
Lemma seqb_true_iff : forall a b, seqb a b = true <-> a = b.
Proof. intros a b; apply String.eqb_eq. Qed.

Lemma sempty_true : forall s, sempty s = true -> s = "".
Proof. intros [|c s] H; [reflexivity | discriminate]. Qed.
Lemma sempty_false : forall s, sempty s = false -> s <> "".
Proof. intros [|c s] H; [discriminate | discriminate]. Qed.

Lemma slen_app : forall a b, slen (a ++ b) = slen a + slen b.
Proof. induction a as [|c a IH]; intros b; simpl; [reflexivity | f_equal; apply IH]. Qed.

Lemma slen_zero : forall s, slen s = 0 -> s = "".
Proof. intros [|c s] H; [reflexivity | discriminate]. Qed.

Lemma app_empty_r : forall s, s ++ "" = s.
Proof. induction s as [|c s IH]; simpl; [reflexivity | now rewrite IH]. Qed.
Lemma app_assoc_s : forall a b c : string, (a ++ b) ++ c = a ++ (b ++ c).
Proof. induction a as [|x a IH]; intros b c; simpl; [reflexivity | now rewrite IH]. Qed.

Lemma sdrop_0 : forall s, sdrop 0 s = s.
Proof. intros [|c s]; reflexivity. Qed.
Lemma sdrop_empty : forall n, sdrop n "" = "".
Proof. intros [|n]; reflexivity. Qed.
Lemma sdrop_len : forall n s, slen (sdrop n s) = slen s - n.
Proof.
  induction n as [|n IH]; intros [|c s]; simpl; auto.
Qed.
Lemma sdrop_add : forall n m s, sdrop (n + m) s = sdrop m (sdrop n s).
Proof.
  induction n as [|n IH]; intros m s.
  - now rewrite sdrop_0.
  - destruct s as [|c s]; simpl; [now rewrite sdrop_empty | apply IH].
Qed.

Lemma sget_sdrop_cons : forall s p c t, sdrop p s = String c t -> sget s p = Ok c.
Proof.
  intros s p c t H; unfold sget.
  assert (G : String.get p s = Some c).
  { revert s H; induction p as [|p IH]; intros s H.
    - rewrite sdrop_0 in H; subst; reflexivity.
    - destruct s as [|d s]; simpl in *; [discriminate | auto]. }
  now rewrite G.
Qed.

Lemma get_none : forall n s, slen s <= n -> String.get n s = None.
Proof.
  induction n as [|n IH]; intros [|c s] H; simpl in *; auto; try lia.
  apply IH; lia.
Qed.
Lemma get_some : forall n s, n < slen s -> exists c, String.get n s = Some c.
Proof.
  induction n as [|n IH]; intros [|c s] H; simpl in *; try lia; eauto.
  apply IH; lia.
Qed.

Lemma sget_end : forall s, sget s (slen s) = Ok chr0.
Proof. intros s; unfold sget; rewrite get_none by lia; rewrite Nat.eqb_refl; reflexivity. Qed.

Lemma total_sget : forall s i, i <= slen s -> total (sget s i).
Proof.
  intros s i H; unfold sget.
  destruct (Nat.eq_dec i (slen s)) as [->|N].
  - rewrite get_none by lia; rewrite Nat.eqb_refl; apply total_ok.
  - destruct (get_some i s) as [c ->]; [lia | apply total_ok].
Qed.

Lemma total_substr : forall s p n, p <= slen s -> total (substr s p n).
Proof.
  intros s p n H; unfold substr; rewrite (proj2 (Nat.leb_le _ _) H); apply total_ok.
Qed.
Lemma total_substr_from : forall s p, p <= slen s -> total (substr_from s p).
Proof. intros s p H; apply total_substr; exact H. Qed.

Lemma substring_sdrop : forall p n s, substring p n s = substring 0 n (sdrop p s).
Proof.
  induction p as [|p IH]; intros n s.
  - now rewrite sdrop_0.
  - destruct s as [|c s]; simpl; [destruct n; reflexivity | apply IH].
Qed.

Lemma substring0_snoc : forall n s c t, sdrop n s = String c t ->
  substring 0 (n + 1) s = substring 0 n s ++ String c "".
Proof.
  induction n as [|n IH]; intros s c t H.
  - rewrite sdrop_0 in H; subst; destruct t; reflexivity.
  - destruct s as [|d s]; simpl in *; [discriminate|].
    f_equal; eapply IH; eauto.
Qed.

Lemma substring_snoc : forall p n s c t, sdrop (p + n) s = String c t ->
  substring p (n + 1) s = substring p n s ++ String c "".
Proof.
  intros p n s c t H; rewrite (substring_sdrop p (n + 1)), (substring_sdrop p n).
  rewrite sdrop_add in H; eapply substring0_snoc; eauto.
Qed.

Lemma substring0_all : forall s, substring 0 (slen s) s = s.
Proof. induction s as [|c s IH]; simpl; [reflexivity | f_equal; exact IH]. Qed.

Lemma substring0_app : forall a b, substring 0 (slen a) (a ++ b) = a.
Proof.
  induction a as [|c a IH]; intros b; simpl.
  - destruct b; reflexivity.
  - f_equal; apply IH.
Qed.

Lemma sdrop_app : forall a b, sdrop (slen a) (a ++ b) = b.
Proof. induction a as [|c a IH]; intros b; simpl; auto. Qed.

Lemma substring0_len : forall n s, slen (substring 0 n s) = Nat.min n (slen s).
Proof.
  induction n as [|n IH]; intros [|c s]; simpl; auto.
Qed.
Lemma substring_len : forall p n s, slen (substring p n s) = Nat.min n (slen s - p).
Proof. intros p n s; rewrite substring_sdrop, substring0_len, sdrop_len; reflexivity. Qed.

Lemma substring0_sdrop_app : forall n s, substring 0 n s ++ sdrop n s = s.
Proof.
  induction n as [|n IH]; intros [|c s]; simpl; auto.
  now rewrite IH.
Qed.
