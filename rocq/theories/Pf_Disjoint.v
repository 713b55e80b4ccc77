(** A procedure showing that two regular expressions have no text in common. *)
From Verif Require Import Prim Lib Regex SpecRegex.
Local Open Scope string_scope.

Fixpoint nullable (r : re) : bool :=
  match r with
  | REps => true
  | RCls _ => false
  | RSeq a b => nullable a && nullable b
  | RAlt a b => nullable a || nullable b
  | ROpt _ => true
  | RStar _ => true
  | RGrp _ a => nullable a
  end.
Definition seq (a b : re) : re := match a with REps => b | _ => RSeq a b end.
(** What can be read first, and what has to follow *)
Fixpoint heads (r : re) : list (list (ascii * ascii) * re) :=
  match r with
  | REps => []
  | RCls k => [(k, REps)]
  | RSeq a b => map (fun h => (fst h, seq (snd h) b)) (heads a) ++ (if nullable a then heads b else [])
  | RAlt a b => heads a ++ heads b
  | ROpt a => heads a
  | RStar a => map (fun h => (fst h, seq (snd h) (RStar a))) (heads a)
  | RGrp _ a => heads a
  end%list.
Lemma nullable_lang : forall r s, Lang r s -> s = "" -> nullable r = true.
Proof.
  induction 1; intros E; cbn [nullable]; try reflexivity; try discriminate E; auto.
  - destruct p; [|discriminate E]. destruct q; [|discriminate E]. rewrite IHLang1, IHLang2 by reflexivity. reflexivity.
  - rewrite IHLang by exact E. reflexivity.
  - rewrite IHLang by exact E. apply orb_true_r.
Qed.
Lemma seq_lang : forall a b s t, Lang a s -> Lang b t -> Lang (seq a b) (s ++ t).
Proof. intros a b s t A B. destruct a; try (apply L_seq; assumption). inversion A. exact B. Qed.
Lemma heads_lang : forall r w, Lang r w -> forall c s, w = String c s -> exists k t, In (k, t) (heads r) /\ in_cls c k = true /\ Lang t s.
Proof.
  induction 1 as [|rs c0 I|a b p q A IHA B IHB|a b p A IHA|a b p B IHB|a|a p A IHA|a|a p q A IHA B IHB|n a p A IHA]; intros c s E; cbn [heads]; try discriminate E.
  - injection E as -> <-. exists rs, REps. split; [left; reflexivity|]. split; [exact I|constructor].
  - destruct p as [|c' p].
    + cbn in E. destruct (IHB _ _ E) as (k & t & I & C & L). exists k, t. split; [|auto]. apply in_or_app. right. rewrite (nullable_lang _ _ A eq_refl). exact I.
    + injection E as <- <-. destruct (IHA _ _ eq_refl) as (k & t & I & C & L). exists k, (seq t b). split; [|split; [exact C|exact (seq_lang _ _ _ _ L B)]].
      apply in_or_app. left. apply in_map_iff. exists (k, t). auto.
  - destruct (IHA _ _ E) as (k & t & I & R). exists k, t. split; [apply in_or_app; auto|exact R].
  - destruct (IHB _ _ E) as (k & t & I & R). exists k, t. split; [apply in_or_app; auto|exact R].
  - exact (IHA _ _ E).
  - destruct p as [|c' p].
    + cbn in E. destruct (IHB _ _ E) as (k & t & I & R). cbn [heads] in I. exists k, t. auto.
    + injection E as <- <-. destruct (IHA _ _ eq_refl) as (k & t & I & C & L). exists k, (seq t (RStar a)). split; [|split; [exact C|exact (seq_lang _ _ _ _ L B)]].
      apply in_map_iff. exists (k, t). auto.
  - exact (IHA _ _ E).
Qed.
(** Two classes have a character in common. *)
Definition meet (k l : list (ascii * ascii)) : bool :=
  existsb (fun a => existsb (fun b => N.leb (N.max (code (fst a)) (code (fst b))) (N.min (code (snd a)) (code (snd b)))) l) k.
Lemma in_meet : forall c k l, in_cls c k = true -> in_cls c l = true -> meet k l = true.
Proof.
  intros c k l K L. unfold in_cls in *. apply existsb_exists in K, L. destruct K as (a & Ia & A). destruct L as (b & Ib & B). unfold in_range in *.
  apply andb_true_iff in A, B. destruct A as [A1 A2]. destruct B as [B1 B2]. apply N.leb_le in A1, A2, B1, B2.
  apply existsb_exists. exists a. split; [exact Ia|]. apply existsb_exists. exists b. split; [exact Ib|]. apply N.leb_le. apply N.max_lub; apply N.min_glb; try assumption.
  - apply (N.le_trans _ (code c)); assumption.
  - apply (N.le_trans _ (code c)); assumption.
  - apply (N.le_trans _ (code c)); assumption.
  - apply (N.le_trans _ (code c)); assumption.
Qed.
Fixpoint same_cls (k l : list (ascii * ascii)) : bool :=
  match k, l with
  | [], [] => true
  | a :: k', b :: l' => Ascii.eqb (fst a) (fst b) && Ascii.eqb (snd a) (snd b) && same_cls k' l'
  | _, _ => false
  end.
Fixpoint same (a b : re) : bool :=
  match a, b with
  | REps, REps => true
  | RCls k, RCls l => same_cls k l
  | RSeq a1 a2, RSeq b1 b2 => same a1 b1 && same a2 b2
  | RAlt a1 a2, RAlt b1 b2 => same a1 b1 && same a2 b2
  | ROpt a1, ROpt b1 => same a1 b1
  | RStar a1, RStar b1 => same a1 b1
  | RGrp n a1, RGrp m b1 => Nat.eqb n m && same a1 b1
  | _, _ => false
  end.
Lemma same_cls_eq : forall k l, same_cls k l = true -> k = l.
Proof.
  induction k as [|[x y] k IH]; intros [|[u v] l] H; try discriminate H; [reflexivity|]. cbn [same_cls fst snd] in H.
  apply andb_true_iff in H. destruct H as [H K]. apply andb_true_iff in H. destruct H as [A B]. apply Ascii.eqb_eq in A, B. subst. f_equal. exact (IH _ K).
Qed.
Lemma same_eq : forall a b, same a b = true -> a = b.
Proof.
  induction a as [|k|a1 IH1 a2 IH2|a1 IH1 a2 IH2|a1 IH1|a1 IH1|n a1 IH1]; intros [|l|b1 b2|b1 b2|b1|b1|m b1] H; try discriminate H; cbn [same] in H; try reflexivity;
    try (apply andb_true_iff in H; destruct H as [A B]); f_equal; auto using same_cls_eq. apply Nat.eqb_eq. exact A.
Qed.
Definition successors (p : re * re) : list (re * re) :=
  flat_map (fun a => flat_map (fun b => if meet (fst a) (fst b) then [(snd a, snd b)] else []) (heads (snd p))) (heads (fst p)).
Definition both_end (p : re * re) : bool := nullable (fst p) && nullable (snd p).
Definition has (p : re * re) (l : list (re * re)) : bool := existsb (fun q => same (fst p) (fst q) && same (snd p) (snd q)) l.
Definition closed (l : list (re * re)) : bool := forallb (fun p => negb (both_end p) && forallb (fun q => has q l) (successors p)) l.
Lemma has_in : forall p l, has p l = true -> In p l.
Proof. intros p l H. apply existsb_exists in H. destruct H as (q & I & E). apply andb_true_iff in E. destruct E as [A B]. apply same_eq in A, B. destruct p, q. cbn in A, B. subst. exact I. Qed.
Lemma closed_apart : forall l, closed l = true -> forall s a b, In (a, b) l -> Lang a s -> Lang b s -> False.
Proof.
  intros l C. induction s as [|c s IH]; intros a b I A B; unfold closed in C; rewrite forallb_forall in C; pose proof (C _ I) as K; apply andb_true_iff in K; destruct K as [K1 K2].
  - unfold both_end in K1. cbn [fst snd] in K1. rewrite (nullable_lang _ _ A eq_refl), (nullable_lang _ _ B eq_refl) in K1. discriminate K1.
  - destruct (heads_lang _ _ A _ _ eq_refl) as (k & t & Ik & Ck & Lk). destruct (heads_lang _ _ B _ _ eq_refl) as (m & u & Im & Cm & Lm).
    rewrite forallb_forall in K2. refine (IH t u (has_in _ _ (K2 (t, u) _)) Lk Lm). unfold successors. cbn [fst snd].
    apply in_flat_map. exists (k, t). split; [exact Ik|]. apply in_flat_map. exists (m, u). split; [exact Im|]. cbn [fst snd]. rewrite (in_meet _ _ _ Ck Cm). left. reflexivity.
Qed.
(** Collect the pairs that can be reached. *)
Fixpoint collect (n : nat) (todo seen : list (re * re)) : list (re * re) :=
  match n, todo with
  | S m, p :: rest => if has p seen then collect m rest seen else collect m (successors p ++ rest)%list (p :: seen)
  | _, _ => seen
  end.
Lemma listed_apart : forall l a b s, has (a, b) l && closed l = true -> Lang a s -> Lang b s -> False.
Proof.
  intros l a b s H A B. apply andb_true_iff in H. destruct H as [H C]. exact (closed_apart _ C _ _ _ (has_in _ _ H) A B).
Qed.
Definition reached (a b : re) : list (re * re) := collect 3000 [(a, b)] [].
Definition apart (a b : re) : bool := has (a, b) (reached a b) && closed (reached a b).
Lemma apart_sound : forall a b s, apart a b = true -> Lang a s -> Lang b s -> False.
Proof. intros a b s. exact (listed_apart (reached a b) a b s). Qed.
