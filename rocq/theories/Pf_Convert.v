(** Unit conversions: exactness, accuracy and order. *)
From Coq Require Import ZArith NArith QArith Qabs Reals Qreals Psatz Lra Bool Lia.
From Verif Require Import Float Values SpecReal SpecUnits.
From Flocq Require Import Core.Zaux Core.Raux Core.Defs Core.Float_prop Core.Generic_fmt Core.Round_NE Core.FLT Core.FLX
  IEEE754.BinarySingleNaN.
From Verif Require Import Pf_Round.
Local Open Scope R_scope.

#[global] Instance p24 : Prec_gt_0 24 := eq_refl.
#[global] Instance p53 : Prec_gt_0 53 := eq_refl.
#[global] Instance e24 : Prec_lt_emax 24 128 := eq_refl.
#[global] Instance e53 : Prec_lt_emax 53 1024 := eq_refl.

Definition F32 := isF 24 128.
Definition F64 := isF 53 1024.
Definition R32 := RN 24 128.
Definition R64 := RN 53 1024.

(** *** Reading a float as a rational number *)
Lemma flt_value_R : forall x, is_finite_SF x = true ->
  exists q, flt_value x = Some q /\ Q2R q = SF2R radix2 x.
Proof.
  intros [s|s| |s m e] F; try discriminate.
  - exists 0%Q. split; [reflexivity|]. unfold Q2R. cbn. lra.
  - cbn [flt_value]. destruct (Z.leb_spec 0 e) as [L|L].
    + eexists. split; [reflexivity|]. unfold Q2R, inject_Z. cbn [Qnum Qden]. cbn [SF2R].
      unfold F2R. cbn [Fnum Fexp]. rewrite mult_IZR. rewrite <- (IZR_Zpower radix2 e L).
      change (radix_val radix2) with 2%Z. destruct s; cbn [cond_Zopp]; cbn; lra.
    + eexists. split; [reflexivity|]. unfold Q2R. cbn [Qnum Qden]. cbn [SF2R].
      unfold F2R. cbn [Fnum Fexp]. rewrite Z2Pos.id by (apply Z.pow_pos_nonneg; lia).
      replace e with (- (- e))%Z at 2 by lia. rewrite bpow_opp.
      rewrite <- (IZR_Zpower radix2 (- e)) by lia. change (radix_val radix2) with 2%Z.
      destruct s; reflexivity.
Qed.
Lemma F32_value : forall x r, F32 x r -> exists q, flt_value x = Some q /\ Q2R q = r.
Proof. intros x r (V & F & E). rewrite <- E. apply flt_value_R. exact F. Qed.
Lemma value_F32 : forall x q, valid_binary 24 128 x = true -> flt_value x = Some q -> F32 x (Q2R q).
Proof.
  intros x q V E. assert (F : is_finite_SF x = true) by (destruct x; try discriminate; reflexivity).
  destruct (flt_value_R x F) as (q' & E' & R'). rewrite E in E'. injection E' as <-.
  repeat split; auto.
Qed.

(** *** Conversions between the formats *)
Lemma wide : forall r x, F32 x r -> R64 r = r.
Proof.
  intros r x X. destruct (lift _ _ _ _ X) as (b & _ & <- & _).
  apply round_generic; [apply valid_rnd_N|].
  pose proof (generic_format_B2R 24 128 b) as G.
  apply generic_format_FLT. apply FLT_format_generic in G; [|reflexivity].
  destruct G as [f Ef Nf Xf]. exists f; [exact Ef| |].
  - eapply Z.lt_trans; [exact Nf|]. reflexivity.
  - eapply Z.le_trans; [|exact Xf]. discriminate.
Qed.
Lemma bp : forall a b, (a < b)%Z -> bpow radix2 a < bpow radix2 b.
Proof. intros. apply bpow_lt. assumption. Qed.
Lemma bple : forall a b, (a <= b)%Z -> bpow radix2 a <= bpow radix2 b.
Proof. intros. apply bpow_le. assumption. Qed.

Lemma to64_ok : forall x r, F32 x r -> F64 (to64 x) r.
Proof.
  intros x r X. pose proof (wide _ _ X) as W. pose proof (isF_lt _ _ _ _ X) as L.
  destruct X as (V & F & E). destruct x as [s|s| |s m e]; try discriminate.
  - repeat split. cbn in *. exact E.
  - cbn [to64]. unfold normalize64.
    pose proof (norm_ok 53 1024 _ _ (cond_Zopp s (Zpos m)) e s) as N.
    cbn [SF2R] in E. change (F2R (Float radix2 (cond_Zopp s (Zpos m)) e) = r) in E. rewrite E in N.
    unfold R64 in W. rewrite W in N. apply N.
    eapply Rlt_trans; [exact L|]. apply bp. reflexivity.
Qed.
Lemma to32_ok : forall x r, F64 x r -> Rabs (R32 r) < bpow radix2 128 -> F32 (to32 x) (R32 r).
Proof.
  intros x r X L. destruct X as (V & F & E). destruct x as [s|s| |s m e]; try discriminate.
  - cbn in E. subst r. unfold R32. rewrite RN_0. repeat split.
  - cbn [to32]. unfold normalize32.
    pose proof (norm_ok 24 128 _ _ (cond_Zopp s (Zpos m)) e s) as N.
    cbn [SF2R] in E. change (F2R (Float radix2 (cond_Zopp s (Zpos m)) e) = r) in E. rewrite E in N.
    apply N. exact L.
Qed.

(** *** Magnitudes *)
Definition lebp (k : Z) (r : R) : Prop := Rabs r <= bpow radix2 k.
Lemma R32_b : forall k r, (-149 <= k)%Z -> lebp k r -> lebp k (R32 r).
Proof. intros k r L B. apply (RN_bound 24 128 _ k r L B). Qed.
Lemma R64_b : forall k r, (-1074 <= k)%Z -> lebp k r -> lebp k (R64 r).
Proof. intros k r L B. apply (RN_bound 53 1024 _ k r L B). Qed.
Lemma lebp_mul : forall j k a b, lebp j a -> lebp k b -> lebp (j + k) (a * b).
Proof.
  intros j k a b A B. unfold lebp in *. rewrite Rabs_mult, bpow_plus.
  apply Rmult_le_compat; auto using Rabs_pos.
Qed.
Lemma lebp_up : forall j k a, (j <= k)%Z -> lebp j a -> lebp k a.
Proof. intros j k a L B. eapply Rle_trans; [exact B|apply bple; exact L]. Qed.
Lemma lebp_add : forall k a b, lebp k a -> lebp k b -> lebp (k + 1) (a + b).
Proof.
  intros k a b A B. unfold lebp in *. rewrite bpow_plus. change (bpow radix2 1) with 2.
  pose proof (Rabs_triang a b). lra.
Qed.
Lemma lebp_sub : forall k a b, lebp k a -> lebp k b -> lebp (k + 1) (a - b).
Proof.
  intros k a b A B. unfold Rminus. apply lebp_add; [exact A|]. unfold lebp. rewrite Rabs_Ropp. exact B.
Qed.

Lemma of_Z_ok : forall z, (Z.abs z <= 2 ^ 100)%Z -> F32 (f32_of_Z z) (R32 (IZR z)).
Proof.
  intros z L. unfold f32_of_Z, normalize32.
  pose proof (norm_ok 24 128 _ _ z 0 false) as N.
  replace (F2R (Float radix2 z 0)) with (IZR z) in N by (unfold F2R; cbn; lra).
  apply N. assert (lebp 100 (IZR z)).
  { unfold lebp. rewrite <- abs_IZR. change (bpow radix2 100) with (IZR (2 ^ 100)). apply IZR_le. exact L. }
  eapply Rle_lt_trans; [apply (R32_b 100); [lia|exact H]|]. apply bp. reflexivity.
Qed.
Lemma of_Z64_ok : forall z, (Z.abs z <= 2 ^ 53)%Z -> F64 (f64_of_Z z) (IZR z).
Proof.
  intros z L. unfold f64_of_Z, normalize64.
  pose proof (norm_ok 53 1024 _ _ z 0 false) as N.
  replace (F2R (Float radix2 z 0)) with (IZR z) in N by (unfold F2R; cbn; lra).
  assert (Ex : RN 53 1024 (IZR z) = IZR z).
  { apply round_generic; [apply valid_rnd_N|]. apply generic_format_FLT.
    destruct (Z.eq_dec (Z.abs z) (2 ^ 53)) as [E|E].
    - exists (Float radix2 (Z.sgn z) 53).
      + unfold F2R. cbn [Fnum Fexp]. change (bpow radix2 53) with (IZR (2 ^ 53)). rewrite <- mult_IZR. f_equal. lia.
      + cbn [Fnum]. destruct z; cbn; reflexivity.
      + cbn. discriminate.
    - exists (Float radix2 z 0); [unfold F2R; cbn; lra| |discriminate].
      cbn [Fnum]. change (Zpower radix2 53) with (2 ^ 53)%Z. lia. }
  rewrite Ex in N. apply N. rewrite <- abs_IZR.
  eapply Rle_lt_trans; [apply IZR_le; exact L|]. change (IZR (2 ^ 53)) with (bpow radix2 53). apply bp. reflexivity.
Qed.

(** *** Relative errors *)
Definition rel (e a b : R) : Prop := Rabs (a - b) <= e * Rabs b.
Lemma rel_refl : forall a, rel 0 a a.
Proof. intros a. unfold rel. replace (a - a) with 0 by lra. rewrite Rabs_R0. lra. Qed.
Lemma rel_up : forall e f a b, e <= f -> rel e a b -> rel f a b.
Proof. intros e f a b L H. unfold rel in *. pose proof (Rabs_pos b). nra. Qed.
Lemma rel_abs : forall e a b, rel e a b -> Rabs a <= (1 + e) * Rabs b.
Proof. intros e a b H. unfold rel in H. pose proof (Rabs_triang (a - b) b). replace (a - b + b) with a in H0 by lra. lra. Qed.
Lemma rel_abs_low : forall e a b, rel e a b -> (1 - e) * Rabs b <= Rabs a.
Proof. intros e a b H. unfold rel in H. pose proof (Rabs_triang (b - a) a). replace (b - a + a) with b in H0 by lra.
  rewrite (Rabs_minus_sym b a) in H0. lra. Qed.
Lemma rel_trans : forall e f a b c, 0 <= e -> rel e a b -> rel f b c -> rel (e + f + e * f) a c.
Proof.
  intros e f a b c P A B. pose proof (rel_abs _ _ _ B) as U. unfold rel in *.
  pose proof (Rabs_triang (a - b) (b - c)) as T. replace (a - b + (b - c)) with (a - c) in T by lra.
  assert (W := Rmult_le_compat_l e _ _ P U). lra.
Qed.
Lemma rel_mul : forall e a b c, rel e a b -> rel e (c * a) (c * b).
Proof.
  intros e a b c H. unfold rel in *. replace (c * a - c * b) with (c * (a - b)) by lra.
  rewrite !Rabs_mult. pose proof (Rabs_pos c). nra.
Qed.
Lemma rel_inv : forall e a b, 0 <= e <= 1 / 2 -> b <> 0 -> rel e a b -> rel (2 * e) (/ a) (/ b).
Proof.
  intros e a b [P L] N H. pose proof (rel_abs_low _ _ _ H) as U. assert (Pb := Rabs_pos_lt b N).
  assert (Na : a <> 0). { intros ->. rewrite Rabs_R0 in U. nra. }
  assert (Pa := Rabs_pos_lt a Na). unfold rel in *.
  replace (/ a - / b) with ((b - a) * (/ a * / b)) by (field; auto).
  rewrite !Rabs_mult, (Rabs_minus_sym b a). rewrite !Rabs_inv.
  assert (I : 0 < / Rabs b) by (apply Rinv_0_lt_compat; exact Pb).
  assert (J : Rabs b * / Rabs a <= 2).
  { apply (Rmult_le_reg_r (Rabs a)); [exact Pa|]. rewrite Rmult_assoc, Rinv_l by lra. nra. }
  assert (K : 0 < / Rabs a) by (apply Rinv_0_lt_compat; exact Pa).
  apply Rle_trans with ((e * Rabs b) * (/ Rabs a * / Rabs b)).
  - apply Rmult_le_compat_r; [nra|exact H].
  - replace (e * Rabs b * (/ Rabs a * / Rabs b)) with (e * (Rabs b * / Rabs a) * / Rabs b) by ring.
    apply Rmult_le_compat_r; [lra|]. assert (W := Rmult_le_compat_l e _ _ P J). lra.
Qed.

(** zero, or of a moderate magnitude *)
Definition mid (k : Z) (r : R) : Prop := r = 0 \/ bpow radix2 (- k) <= Rabs r <= bpow radix2 k.
Lemma mid_mul : forall j k a b, mid j a -> mid k b -> mid (j + k) (a * b).
Proof.
  intros j k a b [-> |[A1 A2]] [-> |[B1 B2]]; try (left; lra). right.
  rewrite Rabs_mult. replace (- (j + k))%Z with (- j + - k)%Z by lia. rewrite !bpow_plus.
  pose proof (bpow_gt_0 radix2 (- j)). pose proof (bpow_gt_0 radix2 (- k)).
  split; apply Rmult_le_compat; lra || auto using Rabs_pos.
Qed.
Lemma mid_inv : forall k a, mid k a -> mid k (/ a).
Proof.
  intros k a [-> |[A1 A2]]; [left; apply Rinv_0|]. right.
  pose proof (bpow_gt_0 radix2 (- k)) as P1. pose proof (bpow_gt_0 radix2 k) as P2.
  rewrite Rabs_inv.
  split.
  - rewrite bpow_opp. apply Rinv_le; lra.
  - replace k with (- - k)%Z by lia. rewrite (bpow_opp radix2 (- k)). apply Rinv_le; lra.
Qed.
Lemma mid_up : forall j k a, (j <= k)%Z -> mid j a -> mid k a.
Proof.
  intros j k a L [-> |[A1 A2]]; [left; reflexivity|]. right. split.
  - eapply Rle_trans; [|exact A1]. apply bple. lia.
  - eapply Rle_trans; [exact A2|]. apply bple. lia.
Qed.
Lemma mid_lebp : forall k a, mid k a -> lebp k a.
Proof. intros k a [-> |[_ A]]; [unfold lebp; rewrite Rabs_R0; apply Rlt_le, bpow_gt_0|exact A]. Qed.

Definition e32 : R := bpow radix2 (-24).
Definition e64 : R := bpow radix2 (-53).
Lemma R32_rel : forall r, mid 100 r -> rel e32 (R32 r) r.
Proof.
  intros r [-> |[L _]]; apply (RN_rel 24 128 p24); [left; reflexivity|right].
  eapply Rle_trans; [|exact L]. apply bple. unfold emin. lia.
Qed.
Lemma R64_rel : forall r, mid 100 r -> rel e64 (R64 r) r.
Proof.
  intros r [-> |[L _]]; apply (RN_rel 53 1024 p53); [left; reflexivity|right].
  eapply Rle_trans; [|exact L]. apply bple. unfold emin. lia.
Qed.
Lemma R64_mid : forall k r, (0 <= k <= 1000)%Z -> mid k r -> mid k (R64 r).
Proof.
  intros k r K [-> |[A1 A2]]; [left; apply RN_0|right].
  split; [|apply R64_b; [lia|exact A2]].
  apply (abs_round_ge_generic radix2 (FLT_exp (emin 53 1024) 53) ZnearestE); [|exact A1].
  apply (format_bpow 53 1024 p53). unfold emin. lia.
Qed.
Lemma R32_mid : forall k r, (0 <= k <= 120)%Z -> mid k r -> mid k (R32 r).
Proof.
  intros k r K [-> |[A1 A2]]; [left; apply RN_0|right].
  split; [|apply R32_b; [lia|exact A2]].
  apply (abs_round_ge_generic radix2 (FLT_exp (emin 24 128) 24) ZnearestE); [|exact A1].
  apply (format_bpow 24 128 p24). unfold emin. lia.
Qed.
Lemma mid_lt32 : forall k r, (k < 128)%Z -> mid k r -> Rabs r < bpow radix2 128.
Proof. intros k r K M. eapply Rle_lt_trans; [apply mid_lebp; exact M|apply bp; exact K]. Qed.
Lemma mid_lt64 : forall k r, (k < 1024)%Z -> mid k r -> Rabs r < bpow radix2 1024.
Proof. intros k r K M. eapply Rle_lt_trans; [apply mid_lebp; exact M|apply bp; exact K]. Qed.

Lemma e32_pos : 0 < e32. Proof. apply bpow_gt_0. Qed.
Lemma e64_pos : 0 < e64. Proof. apply bpow_gt_0. Qed.
Lemma e32_val : e32 = / 16777216. Proof. reflexivity. Qed.
Lemma e64_val : e64 = / 9007199254740992. Proof. reflexivity. Qed.

(** rounding to double and then to float *)
Lemma R3264_rel : forall r, mid 100 r -> rel (/ 10000000) (R32 (R64 r)) r.
Proof.
  intros r M. assert (M' : mid 100 (R64 r)) by (apply R64_mid; [lia|exact M]).
  eapply rel_up; [|eapply rel_trans; [|apply R32_rel; exact M'|apply R64_rel; exact M]].
  - rewrite e32_val, e64_val. lra.
  - apply Rlt_le, e32_pos.
Qed.

Lemma fmul_d_ok : forall v lit r l, F32 v r -> F64 lit l -> mid 50 r -> mid 40 l ->
  F32 (fmul_d v lit) (R32 (R64 (r * l))).
Proof.
  intros v lit r l V L M N. assert (P : mid 90 (r * l)) by (apply (mid_mul 50 40); assumption).
  assert (P' : mid 90 (R64 (r * l))) by (apply R64_mid; [lia|exact P]).
  unfold fmul_d. apply to32_ok.
  - unfold f64_mul. apply (mul_ok 53 1024 p53 e53); [apply to64_ok; exact V|exact L|].
    apply (mid_lt64 90); [lia|exact P'].
  - apply (mid_lt32 90); [lia|]. apply R32_mid; [lia|exact P'].
Qed.
Lemma fdiv_d_ok : forall v lit r l, F32 v r -> F64 lit l -> mid 50 r -> mid 40 l -> l <> 0 ->
  F32 (fdiv_d v lit) (R32 (R64 (r / l))).
Proof.
  intros v lit r l V L M N Z. assert (P : mid 90 (r / l)) by (apply (mid_mul 50 40); [|apply mid_inv]; assumption).
  assert (P' : mid 90 (R64 (r / l))) by (apply R64_mid; [lia|exact P]).
  unfold fdiv_d. apply to32_ok.
  - unfold f64_div. apply (div_ok 53 1024 p53 e53); [apply to64_ok; exact V|exact L|exact Z|].
    apply (mid_lt64 90); [lia|exact P'].
  - apply (mid_lt32 90); [lia|]. apply R32_mid; [lia|exact P'].
Qed.

(** *** Literals *)
Lemma dlit_ok : forall n d, (0 < n <= 2 ^ 40)%Z -> (0 < d <= 2 ^ 40)%Z ->
  F64 (dlit n d) (R64 (IZR n / IZR d)) /\ mid 40 (IZR n / IZR d) /\ mid 40 (R64 (IZR n / IZR d))
  /\ 0 < R64 (IZR n / IZR d).
Proof.
  intros n d [N1 N2] [D1 D2].
  assert (B : mid 40 (IZR n / IZR d)).
  { right. assert (P1 : 1 <= IZR n) by (apply IZR_le; lia). assert (P2 : 1 <= IZR d) by (apply IZR_le; lia).
    assert (Q1 : IZR n <= bpow radix2 40) by (change (bpow radix2 40) with (IZR (2 ^ 40)); apply IZR_le; exact N2).
    assert (Q2 : IZR d <= bpow radix2 40) by (change (bpow radix2 40) with (IZR (2 ^ 40)); apply IZR_le; exact D2).
    assert (I1 : / bpow radix2 40 <= / IZR d) by (apply Rinv_le; lra).
    assert (I2 : / IZR d <= 1). { rewrite <- Rinv_1. apply Rinv_le; lra. }
    assert (I3 : 0 < / IZR d) by (apply Rinv_0_lt_compat; lra).
    rewrite Rabs_pos_eq by (unfold Rdiv; nra). rewrite bpow_opp. unfold Rdiv.
    pose proof (bpow_gt_0 radix2 40). split; nra. }
  assert (B' : mid 40 (R64 (IZR n / IZR d))) by (apply R64_mid; [lia|exact B]).
  refine (conj _ (conj B (conj B' _))).
  - unfold dlit, f64_div. apply (div_ok 53 1024 p53 e53).
    + apply of_Z64_ok. lia.
    + apply of_Z64_ok. lia.
    + intros E. apply eq_IZR in E. lia.
    + apply (mid_lt64 40); [lia|exact B'].
  - assert (P : 0 < IZR n / IZR d).
    { apply Rdiv_lt_0_compat; apply IZR_lt; lia. }
    destruct B as [B|[B _]]; [lra|].
    eapply Rlt_le_trans; [apply (bpow_gt_0 radix2 (-40))|].
    rewrite <- (Rabs_pos_eq (IZR n / IZR d)) by lra.
    apply (round_ge_generic radix2 (FLT_exp (emin 53 1024) 53) ZnearestE).
    + apply (format_bpow 53 1024 p53). unfold emin. lia.
    + exact B.
Qed.

Definition cmul (l r : R) : R := R32 (R64 (r * l)).
Definition cdiv (l r : R) : R := R32 (R64 (r / l)).
Lemma R32_mono : forall a b, a <= b -> R32 a <= R32 b.
Proof. intros. apply (RN_mono 24 128 p24). assumption. Qed.
Lemma R64_mono : forall a b, a <= b -> R64 a <= R64 b.
Proof. intros. apply (RN_mono 53 1024 p53). assumption. Qed.
Lemma cmul_mono : forall l a b, 0 < l -> a <= b -> cmul l a <= cmul l b.
Proof. intros l a b L H. apply R32_mono, R64_mono. apply Rmult_le_compat_r; lra. Qed.
Lemma cdiv_mono : forall l a b, 0 < l -> a <= b -> cdiv l a <= cdiv l b.
Proof.
  intros l a b L H. apply R32_mono, R64_mono. unfold Rdiv. apply Rmult_le_compat_r; [|exact H].
  apply Rlt_le, Rinv_0_lt_compat, L.
Qed.
(** a literal [lit] whose value is the rounded [q] *)
Definition Lit (lit : flt) (q : R) : Prop :=
  0 < q /\ mid 40 q /\ exists l, F64 lit l /\ mid 40 l /\ 0 < l /\ rel e64 l q.
Lemma Lit_d : forall n d, (0 < n <= 2 ^ 40)%Z -> (0 < d <= 2 ^ 40)%Z -> Lit (dlit n d) (IZR n / IZR d).
Proof.
  intros n d N D. destruct (dlit_ok n d N D) as (A & B & C & P). split; [|split; [exact B|]].
  - apply Rdiv_lt_0_compat; apply IZR_lt; lia.
  - exists (R64 (IZR n / IZR d)). repeat (split; [assumption|]). apply R64_rel.
    apply (mid_up 40); [lia|exact B].
Qed.
Lemma Lit_z : forall n, (0 < n <= 2 ^ 40)%Z -> Lit (f64_of_Z n) (IZR n).
Proof.
  intros n N.
  assert (P1 : 1 <= IZR n) by (apply IZR_le; lia).
  assert (Q1 : IZR n <= bpow radix2 40) by (change (bpow radix2 40) with (IZR (2 ^ 40)); apply IZR_le; lia).
  assert (M : mid 40 (IZR n)).
  { right. rewrite Rabs_pos_eq by lra. split; [|exact Q1].
    eapply Rle_trans; [|exact P1]. change 1 with (bpow radix2 0). apply bple. lia. }
  split; [lra|]. split; [exact M|]. exists (IZR n). split; [apply of_Z64_ok; lia|].
  split; [exact M|]. split; [lra|]. apply (rel_up 0); [apply Rlt_le, e64_pos|apply rel_refl].
Qed.

Lemma conv_mul : forall lit q, Lit lit q -> exists f : R -> R,
  (forall v r, F32 v r -> mid 50 r -> F32 (fmul_d v lit) (f r))
  /\ (forall r, mid 50 r -> rel (/ 5000000) (f r) (r * q))
  /\ (forall a b, a <= b -> f a <= f b).
Proof.
  intros lit q (Q & M & l & L & Ml & Pl & E). exists (cmul l). split; [|split].
  - intros v r V R. apply fmul_d_ok; assumption.
  - intros r R. eapply rel_up; [|eapply rel_trans; [|apply R3264_rel|apply rel_mul; exact E]].
    + rewrite e64_val. lra.
    + lra.
    + apply (mid_up 90); [lia|]. apply (mid_mul 50 40); assumption.
  - intros a b H. apply cmul_mono; assumption.
Qed.
Lemma conv_div : forall lit q, Lit lit q -> exists f : R -> R,
  (forall v r, F32 v r -> mid 50 r -> F32 (fdiv_d v lit) (f r))
  /\ (forall r, mid 50 r -> rel (/ 5000000) (f r) (r / q))
  /\ (forall a b, a <= b -> f a <= f b).
Proof.
  intros lit q (Q & M & l & L & Ml & Pl & E). exists (cdiv l). split; [|split].
  - intros v r V R. apply fdiv_d_ok; try assumption. lra.
  - intros r R. eapply rel_up; [|eapply rel_trans; [|apply R3264_rel|apply rel_mul; apply (rel_inv e64)]].
    + rewrite e64_val. lra.
    + lra.
    + apply (mid_up 90); [lia|]. apply (mid_mul 50 40); [|apply mid_inv]; assumption.
    + rewrite e64_val. lra.
    + lra.
    + exact E.
  - intros a b H. apply cdiv_mono; assumption.
Qed.
