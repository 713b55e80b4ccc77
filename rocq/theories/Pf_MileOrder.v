(** Distances in statute miles are in the order of their ten thousandths. *)
From Coq Require Import ZArith NArith Bool Lia List.
From Coq Require Import ZifyBool ZifyNat ZifyN.
From Verif Require Import Prim Float Values Pf_Order.
Local Open Scope Z_scope.

Lemma digits_size : forall p, digits2_pos p = Pos.size p.
Proof. induction p as [p IH|p IH|]; cbn [digits2_pos Pos.size]; [rewrite IH|rewrite IH|]; reflexivity. Qed.
Lemma digits_of : forall n k, 0 < k -> 2 ^ (k - 1) <= n < 2 ^ k -> Zdigits2 n = k.
Proof.
  intros n k K [L H]. destruct n as [|p|p]; [pose proof (Z.pow_pos_nonneg 2 (k - 1)); lia| |pose proof (Z.pow_pos_nonneg 2 (k - 1)); lia].
  cbn [Zdigits2]. rewrite digits_size. pose proof (Pos.size_gt p) as G. pose proof (Pos.size_le p) as D.
  apply Pos2Z.pos_lt_pos in G. apply Pos2Z.pos_le_pos in D. rewrite Pos2Z.inj_pow in G, D. rewrite (Pos2Z.inj_xO p) in D.
  set (s := Z.pos (Pos.size p)) in *. assert (P : 0 < s) by reflexivity. clearbody s.
  destruct (Z.lt_trichotomy s k) as [C|[C|C]]; [|exact C|].
  - assert (X : 2 ^ s <= 2 ^ (k - 1)) by (apply Z.pow_le_mono_r; lia).
    exfalso. apply (Z.lt_irrefl (Z.pos p)). apply (Z.lt_le_trans _ _ _ G). apply (Z.le_trans _ _ _ X L).
  - assert (X : 2 ^ (k + 1) <= 2 ^ s) by (apply Z.pow_le_mono_r; lia). rewrite Z.pow_add_r in X by lia.
    change (2 ^ 1) with 2 in X. exfalso. lia.
Qed.

(** Twenty-four digits: nothing to shift *)
Lemma kept : forall m e l, 2 ^ 23 <= m < 2 ^ 24 -> -100 <= e -> shr_fexp 24 128 m e l = (shr_record_of_loc m l, e).
Proof.
  intros m e l B E. unfold shr_fexp. rewrite (digits_of m 24) by (try lia; exact B). unfold fexp, emin.
  replace (Z.max (24 + e - 24) (3 - 128 - 24) - e) with 0 by lia. reflexivity.
Qed.
Lemma loc_back : forall m l, loc_of_shr_record (shr_record_of_loc m l) = l /\ shr_m (shr_record_of_loc m l) = m.
Proof. intros m [|[| |]]; split; reflexivity. Qed.
Lemma rounded_near : forall m l, round_nearest_even m l = m \/ round_nearest_even m l = m + 1.
Proof. intros m [|[| |]]; cbn; auto. destruct (Z.even m); auto. Qed.
(** Twenty-five digits: one is lost *)
Lemma lost_one : forall m e l, 2 ^ 24 <= m < 2 ^ 25 -> -100 <= e ->
  exists l', shr_fexp 24 128 m e l = (shr_record_of_loc (m / 2) l', e + 1).
Proof.
  intros m e l B E. unfold shr_fexp. rewrite (digits_of m 25) by (try lia; exact B). unfold fexp, emin.
  replace (Z.max (25 + e - 24) (3 - 128 - 24) - e) with 1 by lia. cbn [shr iter_pos].
  destruct m as [|p|p]; [lia| |lia]. destruct p as [p|p|]; [| |lia].
  - replace (Z.pos p~1 / 2) with (Z.pos p) by (apply (Z.div_unique _ 2 _ 1); lia).
    destruct l as [|[| |]]; cbn; [exists (loc_Inexact Eq)|exists (loc_Inexact Gt)|exists (loc_Inexact Gt)|exists (loc_Inexact Gt)]; reflexivity.
  - replace (Z.pos p~0 / 2) with (Z.pos p) by (apply (Z.div_unique _ 2 _ 0); lia).
    destruct l as [|[| |]]; cbn; [exists loc_Exact|exists (loc_Inexact Lt)|exists (loc_Inexact Lt)|exists (loc_Inexact Lt)]; reflexivity.
Qed.
Definition near (m e : Z) (x : flt) (q : Z) (eq : Z) : Prop :=
  x = S754_finite false (Z.to_pos m) e /\ 2 ^ 23 <= m < 2 ^ 24
  /\ (e = eq /\ (m = q \/ m = q + 1) \/ e = eq + 1 /\ (2 * m = q + 1 \/ m = q / 2 \/ m = q / 2 + 1)).
Lemma round_aux : forall q e l, 2 ^ 23 <= q < 2 ^ 25 - 2 -> -100 <= e <= 50 ->
  exists m e', near m e' (binary_round_aux 24 128 false q e l) q e.
Proof.
  intros q e l B E. unfold binary_round_aux, near. destruct (Z_lt_le_dec q (2 ^ 24)) as [Q|Q].
  - rewrite kept by lia. destruct (loc_back q l) as [-> ->]. destruct (rounded_near q l) as [-> | ->].
    + rewrite kept by lia. cbn [shr_record_of_loc shr_m]. exists q, e. destruct q as [|p|p]; [lia| |lia].
      replace (Zle_bool e (128 - 24)) with true by (symmetry; apply Zle_imp_le_bool; lia). split; [reflexivity|]. split; [lia|]. left. auto.
    + destruct (Z.eq_dec (q + 1) (2 ^ 24)) as [X|X].
      * rewrite X. exists (2 ^ 23), (e + 1). unfold shr_fexp. replace (Zdigits2 (2 ^ 24)) with 25 by reflexivity. unfold fexp, emin.
        replace (Z.max (25 + e - 24) (3 - 128 - 24) - e) with 1 by lia. cbn.
        replace (Zle_bool (e + 1) 104) with true by (symmetry; apply Zle_imp_le_bool; lia). split; [reflexivity|]. split; [lia|]. right. lia.
      * rewrite kept by lia. cbn [shr_record_of_loc shr_m]. exists (q + 1), e. destruct (q + 1) as [|p|p] eqn:Y; [lia| |lia].
        replace (Zle_bool e (128 - 24)) with true by (symmetry; apply Zle_imp_le_bool; lia). split; [reflexivity|]. split; [lia|]. left. lia.
  - destruct (lost_one q e l) as (l' & ->); [lia|lia|]. destruct (loc_back (q / 2) l') as [-> ->].
    assert (H : 2 ^ 23 <= q / 2 < 2 ^ 24 - 1) by (split; [apply Z.div_le_lower_bound; lia|apply Z.div_lt_upper_bound; lia]).
    destruct (rounded_near (q / 2) l') as [-> | ->].
    + rewrite kept by lia. cbn [shr_record_of_loc shr_m]. exists (q / 2), (e + 1). destruct (q / 2) as [|p|p] eqn:Y; [lia| |lia].
      replace (Zle_bool (e + 1) (128 - 24)) with true by (symmetry; apply Zle_imp_le_bool; lia). split; [reflexivity|]. split; [lia|]. right. auto.
    + rewrite kept by lia. cbn [shr_record_of_loc shr_m]. exists (q / 2 + 1), (e + 1). destruct (q / 2 + 1) as [|p|p] eqn:Y; [lia| |lia].
      replace (Zle_bool (e + 1) (128 - 24)) with true by (symmetry; apply Zle_imp_le_bool; lia). split; [reflexivity|]. split; [lia|]. right. auto.
Qed.

(** ** Integers *)
Lemma shifted : forall d p, Z.pos (shift_pos d p) = Z.pos p * 2 ^ Z.pos d.
Proof. intros d p. rewrite shift_pos_correct. change (Z.pow_pos 2 d) with (2 ^ Z.pos d). apply Z.mul_comm. Qed.
Lemma exact24 : forall m e, 2 ^ 23 <= Z.pos m < 2 ^ 24 -> -100 <= e <= 50 -> binary_round_aux 24 128 false (Z.pos m) e loc_Exact = S754_finite false m e.
Proof.
  intros m e B E. unfold binary_round_aux. rewrite kept by lia. cbn [shr_record_of_loc shr_m loc_of_shr_record round_nearest_even].
  rewrite kept by lia. cbn [shr_record_of_loc shr_m]. replace (Zle_bool e (128 - 24)) with true by (symmetry; apply Zle_imp_le_bool; lia). reflexivity.
Qed.
Lemma int_float : forall k v, 1 <= k <= 24 -> 2 ^ (k - 1) <= v < 2 ^ k ->
  f32_of_Z v = S754_finite false (Z.to_pos (v * 2 ^ (24 - k))) (k - 24) /\ 2 ^ 23 <= v * 2 ^ (24 - k) < 2 ^ 24.
Proof.
  intros k v K B. assert (P : 0 < 2 ^ (24 - k)) by (apply Z.pow_pos_nonneg; lia). assert (P' : 0 < 2 ^ (k - 1)) by (apply Z.pow_pos_nonneg; lia).
  assert (B' : 2 ^ 23 <= v * 2 ^ (24 - k) < 2 ^ 24).
  { replace (2 ^ 23) with (2 ^ (k - 1) * 2 ^ (24 - k)) by (rewrite <- Z.pow_add_r by lia; f_equal; lia).
    replace (2 ^ 24) with (2 ^ k * 2 ^ (24 - k)) by (rewrite <- Z.pow_add_r by lia; f_equal; lia).
    split; [apply Z.mul_le_mono_nonneg_r; lia|apply Z.mul_lt_mono_pos_r; lia]. }
  split; [|exact B']. pose proof (digits_of v k ltac:(lia) B) as D. destruct v as [|p|p]; [lia| |lia].
  unfold f32_of_Z, normalize32, binary_normalize, binary_round. cbn [Zdigits2] in D. rewrite D. unfold shl_align, fexp, emin.
  replace (Z.max (k + 0 - 24) (3 - 128 - 24) - 0) with (k - 24) by lia.
  destruct (Z.eq_dec k 24) as [->|Ne].
  - change (24 - 24) with 0 in *. cbn beta iota. change (2 ^ 0) with 1 in *. rewrite Z.mul_1_r in *. apply exact24; lia.
  - destruct (k - 24) as [|d|d] eqn:Ek; [lia|lia|]. replace (24 - k) with (Z.pos d) in * by lia. rewrite <- shifted in *.
    replace (Z.max (k + 0 - 24) (3 - 128 - 24)) with (Z.neg d) by lia. rewrite exact24 by lia. reflexivity.
Qed.
Lemma kept53 : forall m e l, 2 ^ 52 <= m < 2 ^ 53 -> -200 <= e -> shr_fexp 53 1024 m e l = (shr_record_of_loc m l, e).
Proof.
  intros m e l B E. unfold shr_fexp. rewrite (digits_of m 53) by (try lia; exact B). unfold fexp, emin.
  replace (Z.max (53 + e - 53) (3 - 1024 - 53) - e) with 0 by lia. reflexivity.
Qed.
Lemma wide : forall m e, 2 ^ 23 <= m < 2 ^ 24 -> -100 <= e <= 50 -> to64 (S754_finite false (Z.to_pos m) e) = S754_finite false (Z.to_pos (m * 2 ^ 29)) (e - 29).
Proof.
  intros m e B E. pose proof (digits_of m 24 ltac:(lia) B) as D. destruct m as [|p|p]; [lia| |lia]. change (Z.to_pos (Z.pos p)) with p.
  unfold to64, cond_Zopp, normalize64, binary_normalize, binary_round. cbn [Zdigits2] in D. rewrite D. unfold shl_align, fexp, emin.
  replace (Z.max (24 + e - 53) (3 - 1024 - 53)) with (e - 29) by lia. replace (e - 29 - e) with (Z.neg 29) by lia. rewrite <- (shifted 29 p).
  assert (B' : 2 ^ 52 <= Z.pos (shift_pos 29 p) < 2 ^ 53) by (rewrite shifted; lia).
  change (Z.to_pos (Z.pos (shift_pos 29 p))) with (shift_pos 29 p). remember (shift_pos 29 p) as q eqn:Q. clear Q.
  unfold binary_round_aux. rewrite kept53 by lia. cbn [shr_record_of_loc shr_m loc_of_shr_record round_nearest_even].
  rewrite kept53 by lia. cbn [shr_record_of_loc shr_m]. replace (Zle_bool (e - 29) (1024 - 53)) with true by (symmetry; apply Zle_imp_le_bool; lia). reflexivity.
Qed.

(** ** The quotient *)
Definition miles (v : Z) : flt := to64 (f32_div (f32_of_Z v) (f32_of_N statuteMileFactor)).
Lemma factor_float : f32_of_N statuteMileFactor = S754_finite false 10240000 (-10).
Proof. reflexivity. Qed.
Lemma quotient : forall m e, 2 ^ 23 <= m < 2 ^ 24 -> -24 <= e <= 0 ->
  exists m' e', near m' e' (f32_div (S754_finite false (Z.to_pos m) e) (S754_finite false 10240000 (-10))) (m * 2 ^ 24 / 10240000) (e - 14).
Proof.
  intros m e B E. pose proof (digits_of m 24 ltac:(lia) B) as D. unfold f32_div, SFdiv. rewrite Z2Pos.id by lia. unfold SFdiv_core_binary. rewrite D.
  change (Zdigits2 10240000) with 24. unfold fexp, emin.
  replace (Z.min (Z.max (24 + e - (24 + -10) - 24) (3 - 128 - 24)) (e - -10)) with (e - 14) by lia.
  replace (e - -10 - (e - 14)) with 24 by lia. cbv iota zeta. rewrite Z.shiftl_mul_pow2 by lia.
  pose proof (Z.div_eucl_eq (m * 2 ^ 24) 10240000 ltac:(lia)) as _. unfold Z.div. destruct (Z.div_eucl (m * 2 ^ 24) 10240000) as [q r] eqn:X.
  pose proof (Z_div_mod (m * 2 ^ 24) 10240000 ltac:(lia)) as Y. rewrite X in Y. cbn [xorb]. apply round_aux; lia.
Qed.
(** The value, as a multiple of 2^-60, is within a unit in the last place of the exact one. *)
Lemma mile_float : forall v, 0 < v < 1500000 -> exists m e,
  miles v = S754_finite false (Z.to_pos (m * 2 ^ 29)) (e - 29) /\ 2 ^ 23 <= m < 2 ^ 24 /\ -38 <= e <= -16
  /\ 10000 * (m - 1) * 2 ^ (e + 38) <= v * 2 ^ 38 <= 10000 * (m + 1) * 2 ^ (e + 38).
Proof.
  intros v B.
  assert (K : exists k, 1 <= k <= 21 /\ 2 ^ (k - 1) <= v < 2 ^ k).
  { exists (Z.log2 v + 1). replace (Z.log2 v + 1 - 1) with (Z.log2 v) by lia. rewrite Z.add_1_r.
    pose proof (Z.log2_spec v ltac:(lia)). assert (Z.log2 v <= Z.log2 1500000) by (apply Z.log2_le_mono; lia). change (Z.log2 1500000) with 20 in *.
    pose proof (Z.log2_nonneg v). lia. }
  destruct K as (k & K & V). destruct (int_float k v ltac:(lia) V) as (F & R). unfold miles. rewrite F, factor_float.
  destruct (quotient _ (k - 24) R ltac:(lia)) as (m & e & -> & M & C).
  remember (v * 2 ^ (24 - k) * 2 ^ 24 / 10240000) as q eqn:Q.
  assert (G : 10240000 * q <= v * 2 ^ (24 - k) * 2 ^ 24 < 10240000 * (q + 1)).
  { pose proof (Z_div_mod_eq_full (v * 2 ^ (24 - k) * 2 ^ 24) 10240000). pose proof (Z.mod_pos_bound (v * 2 ^ (24 - k) * 2 ^ 24) 10240000). lia. }
  exists m, e. assert (E : -38 <= e <= -16) by lia.
  rewrite wide by lia. split; [reflexivity|]. split; [exact M|]. split; [exact E|]. clear Q F.
  assert (k = 1 \/ k = 2 \/ k = 3 \/ k = 4 \/ k = 5 \/ k = 6 \/ k = 7 \/ k = 8 \/ k = 9 \/ k = 10 \/ k = 11 \/ k = 12 \/ k = 13 \/ k = 14 \/ k = 15 \/ k = 16 \/ k = 17 \/ k = 18 \/ k = 19 \/ k = 20 \/ k = 21) as H by lia.
  assert (X : q = 2 * (q / 2) \/ q = 2 * (q / 2) + 1) by lia. remember (q / 2) as h eqn:Hh. clear Hh.
  repeat destruct H as [H|H]; subst k; destruct C as [[-> C]|[-> C]];
    repeat match goal with
    | |- context [2 ^ ?a] => let x := eval compute in (2 ^ a) in change (2 ^ a) with x
    | H : context [2 ^ ?a] |- _ => let x := eval compute in (2 ^ a) in change (2 ^ a) with x in H
    end; lia.
Qed.
Lemma finite_lt : forall m e m' e', 2 ^ 23 <= m < 2 ^ 24 -> 2 ^ 23 <= m' < 2 ^ 24 -> -38 <= e <= -16 -> -38 <= e' <= -16 ->
  m * 2 ^ (e + 38) < m' * 2 ^ (e' + 38) ->
  SFltb (S754_finite false (Z.to_pos (m * 2 ^ 29)) (e - 29)) (S754_finite false (Z.to_pos (m' * 2 ^ 29)) (e' - 29)) = true.
Proof.
  intros m e m' e' M M' E E' L. unfold SFltb, SFcompare. change (Pos.compare_cont Eq) with Pos.compare.
  destruct (Z.compare_spec (e - 29) (e' - 29)) as [X|X|X]; [|reflexivity|].
  - assert (e' = e) by lia. subst e'. assert (P : 0 < 2 ^ (e + 38)) by (apply Z.pow_pos_nonneg; lia). apply Z.mul_lt_mono_pos_r in L; [|exact P].
    destruct (Pos.compare_spec (Z.to_pos (m * 2 ^ 29)) (Z.to_pos (m' * 2 ^ 29))) as [Y|Y|Y]; [|reflexivity|]; lia.
  - exfalso. assert (Y : 2 ^ (e' + 39) <= 2 ^ (e + 38)) by (apply Z.pow_le_mono_r; lia). replace (e' + 39) with (e' + 38 + 1) in Y by lia. rewrite Z.pow_add_r in Y by lia.
    change (2 ^ 1) with 2 in Y. assert (P : 0 < 2 ^ (e' + 38)) by (apply Z.pow_pos_nonneg; lia). nia.
Qed.
Lemma miles_lt : forall v w, 0 <= v < w -> w < 1500000 -> SFltb (miles v) (miles w) = true.
Proof.
  intros v w V W. destruct (mile_float w ltac:(lia)) as (m' & e' & F' & M' & E' & B'). rewrite F'.
  destruct (Z.eq_dec v 0) as [->|Ne]; [reflexivity|].
  destruct (mile_float v ltac:(lia)) as (m & e & -> & M & E & B). apply finite_lt; try assumption.
  assert (P : 2 ^ (e + 38) <= 2 ^ 22) by (apply Z.pow_le_mono_r; lia). assert (P' : 2 ^ (e' + 38) <= 2 ^ 22) by (apply Z.pow_le_mono_r; lia). lia.
Qed.
Theorem miles_order : forall v w, 0 <= v < 1500000 -> 0 <= w < 1500000 -> SFltb (miles v) (miles w) = (v <? w).
Proof.
  intros v w V W. destruct (Z.ltb_spec v w) as [L|L]; [apply miles_lt; lia|].
  destruct (Z.eq_dec v w) as [->|Ne]; [apply ltb_irrefl|]. apply ltb_asym. apply miles_lt; lia.
Qed.
