(** Comparison of floating point values, and functions into them that keep the order. *)
From Coq Require Import ZArith NArith Bool Lia List.
From Coq Require Import ZifyBool ZifyNat ZifyN.
From Verif Require Import Prim Float.
Import ListNotations.

Lemma ltb_trans : forall x y z, SFltb x y = true -> SFltb y z = true -> SFltb x z = true.
Proof.
  unfold SFltb, SFcompare. intros x y z.
  destruct x as [sx|sx| |sx mx ex], y as [sy|sy| |sy my ey], z as [sz|sz| |sz mz ez];
    repeat match goal with s : bool |- _ => destruct s end; try discriminate; try reflexivity; intros A B;
    repeat match goal with
    | H : context [Z.compare ?a ?b] |- _ => destruct (Z.compare_spec a b); try discriminate
    | |- context [Z.compare ?a ?b] => destruct (Z.compare_spec a b); try lia
    end; subst; try discriminate; try lia; try reflexivity;
    change (Pos.compare_cont Eq) with Pos.compare in *;
    repeat match goal with
    | H : context [Pos.compare ?a ?b] |- _ => destruct (Pos.compare_spec a b); try discriminate
    | |- context [Pos.compare ?a ?b] => destruct (Pos.compare_spec a b); try lia
    end; subst; try discriminate; try lia; reflexivity.
Qed.
Lemma ltb_asym : forall x y, SFltb x y = true -> SFltb y x = false.
Proof.
  unfold SFltb, SFcompare. intros x y.
  destruct x as [sx|sx| |sx mx ex], y as [sy|sy| |sy my ey];
    repeat match goal with s : bool |- _ => destruct s end; try discriminate; try reflexivity; intros A;
    repeat match goal with
    | H : context [Z.compare ?a ?b] |- _ => destruct (Z.compare_spec a b); try discriminate
    | |- context [Z.compare ?a ?b] => destruct (Z.compare_spec a b); try lia
    end; subst; try discriminate; try lia; try reflexivity;
    change (Pos.compare_cont Eq) with Pos.compare in *;
    repeat match goal with
    | H : context [Pos.compare ?a ?b] |- _ => destruct (Pos.compare_spec a b); try discriminate
    | |- context [Pos.compare ?a ?b] => destruct (Pos.compare_spec a b); try lia
    end; subst; try discriminate; try lia; reflexivity.
Qed.
Lemma ltb_irrefl : forall x, SFltb x x = false.
Proof. intros x. destruct (SFltb x x) eqn:E; [|reflexivity]. rewrite (ltb_asym _ _ E) in E. discriminate E. Qed.
Lemma leb_ltb : forall x y, SFcompare x y <> None -> SFleb x y = negb (SFltb y x).
Proof.
  unfold SFltb, SFleb, SFcompare. intros x y.
  destruct x as [sx|sx| |sx mx ex], y as [sy|sy| |sy my ey];
    repeat match goal with s : bool |- _ => destruct s end; try congruence; try reflexivity; intros A;
    rewrite ?(Z.compare_antisym ey ex); change (Pos.compare_cont Eq) with Pos.compare in *; rewrite ?(Pos.compare_antisym my mx);
    rewrite (Z.compare_antisym ex ey), (Pos.compare_antisym mx my);
    destruct (Z.compare ex ey); cbn [CompOpp]; try reflexivity; destruct (Pos.compare mx my); reflexivity.
Qed.

(** ** Increasing step by step *)
Definition climbs (f : Z -> flt) (a : Z) (n : N) : Z * flt * bool :=
  N.iter n (fun s => match s with (v, x, ok) => let y := f (v + 1)%Z in ((v + 1)%Z, y, ok && SFltb x y) end) (a, f a, true).
Lemma climbs_at : forall f a n, fst (climbs f a n) = ((a + Z.of_N n)%Z, f (a + Z.of_N n)%Z).
Proof.
  intros f a n. induction n as [|n IH] using N.peano_ind.
  - cbn [climbs N.iter]. rewrite Z.add_0_r. reflexivity.
  - unfold climbs in *. rewrite N.iter_succ. destruct (N.iter n _ _) as [[v x] ok]. cbn [fst] in *. injection IH as -> ->.
    replace (a + Z.of_N (N.succ n))%Z with (a + Z.of_N n + 1)%Z by lia. reflexivity.
Qed.
Lemma climbs_succ : forall f a n, snd (climbs f a (N.succ n)) = snd (climbs f a n) && SFltb (f (a + Z.of_N n)%Z) (f (a + Z.of_N n + 1)%Z).
Proof.
  intros f a n. pose proof (climbs_at f a n) as A. unfold climbs in *. rewrite N.iter_succ. destruct (N.iter n _ _) as [[v x] ok].
  cbn [fst] in A. injection A as -> ->. reflexivity.
Qed.
Lemma climbs_step : forall f a n, snd (climbs f a n) = true -> forall v, (a <= v < a + Z.of_N n)%Z -> SFltb (f v) (f (v + 1)%Z) = true.
Proof.
  intros f a n. induction n as [|n IH] using N.peano_ind; intros C v B; [lia|].
  rewrite climbs_succ in C. apply andb_true_iff in C as [C D].
  destruct (Z.eq_dec v (a + Z.of_N n)) as [->|Ne]; [exact D|]. apply IH; [exact C|lia].
Qed.
Lemma climbs_lt : forall f a n, snd (climbs f a n) = true -> forall x y, (a <= x)%Z -> (x < y)%Z -> (y <= a + Z.of_N n)%Z ->
  SFltb (f x) (f y) = true.
Proof.
  intros f a n C x y Hx Hxy Hy. pose proof (climbs_step _ _ _ C) as S1.
  assert (G : forall k : nat, (x + 1 + Z.of_nat k <= a + Z.of_N n)%Z -> SFltb (f x) (f (x + 1 + Z.of_nat k)%Z) = true).
  { induction k as [|k IH]; intros L.
    - replace (x + 1 + Z.of_nat 0)%Z with (x + 1)%Z by lia. apply S1. lia.
    - replace (x + 1 + Z.of_nat (S k))%Z with (x + 1 + Z.of_nat k + 1)%Z by lia.
      refine (ltb_trans _ _ _ (IH _) (S1 _ _)); lia. }
  specialize (G (Z.to_nat (y - x - 1))). replace (x + 1 + Z.of_nat (Z.to_nat (y - x - 1)))%Z with y in G by lia. apply G. lia.
Qed.
Lemma climbs_ltb : forall f a n, snd (climbs f a n) = true -> forall x y, (a <= x <= a + Z.of_N n)%Z -> (a <= y <= a + Z.of_N n)%Z ->
  SFltb (f x) (f y) = (x <? y)%Z.
Proof.
  intros f a n C x y X Y. destruct (Z.ltb_spec x y) as [L|L].
  - apply (climbs_lt _ _ _ C); lia.
  - destruct (Z.eq_dec x y) as [->|Ne]; [apply ltb_irrefl|]. apply ltb_asym. apply (climbs_lt _ _ _ C); lia.
Qed.

(** ** Temperatures: whole degrees and tenths *)
Definition whole (v : Z) : flt := to64 (f32_of_Z v).
Definition tenths (v : Z) : flt := to64 (f32_mul (f32_of_Z v) (flit 1 10)).
Lemma whole_climbs : snd (climbs whole (-1000) 11000) = true.
Proof. vm_compute. reflexivity. Qed.
Lemma tenths_climbs : snd (climbs tenths (-1000) 2000) = true.
Proof. vm_compute. reflexivity. Qed.
