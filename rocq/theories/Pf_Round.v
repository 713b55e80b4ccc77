(** The floating-point operations of the model and the real numbers: every operation returns the
    rounded exact result. The rounding itself is Flocq's. *)
From Coq Require Import ZArith Reals Psatz Lra SpecFloat Bool.
From Verif Require Import Float.
From Flocq Require Import Core.Zaux Core.Raux Core.Defs Core.Digits Core.Round_NE Core.Float_prop
  Core.Generic_fmt Core.Round_pred Core.FLT Core.Ulp Relative Calc.Round Calc.Bracket
  IEEE754.BinarySingleNaN.
Local Open Scope R_scope.

Section Format.
Variable prec emax : Z.
Context (Hp : FLX.Prec_gt_0 prec).
Context (He : Prec_lt_emax prec emax).

Definition emin : Z := (3 - emax - prec)%Z.
Definition RN (x : R) : R := round radix2 (FLT_exp emin prec) ZnearestE x.

(** [x] is a finite number of the format, and its value is [r] *)
Definition isF (x : flt) (r : R) : Prop :=
  valid_binary prec emax x = true /\ is_finite_SF x = true /\ SF2R radix2 x = r.

Lemma rne_equiv : forall s m l, round_nearest_even m l = choice_mode mode_NE s m l.
Proof. intros s m [|c]; [reflexivity|]. destruct c; try reflexivity. cbn. destruct (Z.even m); reflexivity. Qed.

Lemma aux_equiv : forall sx mx ex lx,
  SpecFloat.binary_round_aux prec emax sx mx ex lx = binary_round_aux prec emax mode_NE sx mx ex lx.
Proof.
  intros. unfold SpecFloat.binary_round_aux, binary_round_aux.
  destruct (shr_fexp prec emax mx ex lx) as [mrs e]. cbn -[shr_fexp].
  rewrite (rne_equiv sx). reflexivity.
Qed.
Lemma round_equiv : forall s m e,
  SpecFloat.binary_round prec emax s m e = binary_round prec emax mode_NE s m e.
Proof.
  intros. unfold SpecFloat.binary_round, binary_round. unfold shl_align_fexp.
  destruct (shl_align m e (fexp prec emax (Zpos (digits2_pos m) + e))) as [mz ez]. apply aux_equiv.
Qed.
Lemma normalize_equiv : forall m e z,
  SpecFloat.binary_normalize prec emax m e z
  = B2SF (binary_normalize prec emax Hp He mode_NE m e z).
Proof.
  intros [|p|p] e z; [reflexivity| |]; cbn; rewrite B2SF_SF2B; apply round_equiv.
Qed.

Lemma fexp_FLT : forall e, fexp prec emax e = FLT_exp emin prec e.
Proof. reflexivity. Qed.

Lemma lift : forall x r, isF x r -> exists b : binary_float prec emax,
  B2SF b = x /\ B2R b = r /\ is_finite b = true.
Proof.
  intros x r (V & F & E). exists (SF2B x V). rewrite B2SF_SF2B, B2R_SF2B, is_finite_SF2B. auto.
Qed.
Lemma lower : forall (b : binary_float prec emax), is_finite b = true -> isF (B2SF b) (B2R b).
Proof.
  intros b F. repeat split; [apply valid_binary_B2SF|rewrite is_finite_SF_B2SF; exact F|apply SF2R_B2SF].
Qed.

Lemma mul_ok : forall x y a b, isF x a -> isF y b -> Rabs (RN (a * b)) < bpow radix2 emax ->
  isF (SFmul prec emax x y) (RN (a * b)).
Proof.
  intros x y a b X Y L. destruct (lift _ _ X) as (bx & <- & <- & Fx).
  destruct (lift _ _ Y) as (b_y & <- & <- & Fy).
  assert (Q : SFmul prec emax (B2SF bx) (B2SF b_y) = B2SF (Bmult mode_NE bx b_y)).
  { destruct bx, b_y; try reflexivity. cbn. rewrite B2SF_SF2B. apply aux_equiv. }
  rewrite Q. pose proof (Bmult_correct prec emax _ _ mode_NE bx b_y) as C.
  rewrite Rlt_bool_true in C by exact L. destruct C as (C1 & C2 & _).
  rewrite Fx, Fy in C2. pose proof (lower _ C2) as W. rewrite C1 in W. exact W.
Qed.

Lemma div_ok : forall x y a b, isF x a -> isF y b -> b <> 0 -> Rabs (RN (a / b)) < bpow radix2 emax ->
  isF (SFdiv prec emax x y) (RN (a / b)).
Proof.
  intros x y a b X Y Nz L. destruct (lift _ _ X) as (bx & <- & <- & Fx).
  destruct (lift _ _ Y) as (b_y & <- & <- & Fy).
  assert (Q : SFdiv prec emax (B2SF bx) (B2SF b_y) = B2SF (Bdiv mode_NE bx b_y)).
  { destruct bx, b_y; try reflexivity. cbn. rewrite B2SF_SF2B.
    destruct (SFdiv_core_binary prec emax (Zpos m) e (Zpos m0) e1) as [[mz ez] lz]. apply aux_equiv. }
  rewrite Q. pose proof (Bdiv_correct prec emax _ _ mode_NE bx b_y Nz) as C.
  rewrite Rlt_bool_true in C by exact L. destruct C as (C1 & C2 & _).
  rewrite Fx in C2. pose proof (lower _ C2) as W. rewrite C1 in W. exact W.
Qed.

Lemma add_ok : forall x y a b, isF x a -> isF y b -> Rabs (RN (a + b)) < bpow radix2 emax ->
  isF (SFadd prec emax x y) (RN (a + b)).
Proof.
  intros x y a b X Y L. destruct (lift _ _ X) as (bx & <- & <- & Fx).
  destruct (lift _ _ Y) as (b_y & <- & <- & Fy).
  assert (Q : SFadd prec emax (B2SF bx) (B2SF b_y) = B2SF (Bplus mode_NE bx b_y)).
  { destruct bx, b_y; try reflexivity; try discriminate; [cbn; destruct (Bool.eqb s s0); reflexivity|].
    apply normalize_equiv. }
  rewrite Q. pose proof (Bplus_correct prec emax _ _ mode_NE bx b_y Fx Fy) as C.
  rewrite Rlt_bool_true in C by exact L. destruct C as (C1 & C2 & _).
  pose proof (lower _ C2) as W. rewrite C1 in W. exact W.
Qed.

Lemma sub_ok : forall x y a b, isF x a -> isF y b -> Rabs (RN (a - b)) < bpow radix2 emax ->
  isF (SFsub prec emax x y) (RN (a - b)).
Proof.
  intros x y a b X Y L. destruct (lift _ _ X) as (bx & <- & <- & Fx).
  destruct (lift _ _ Y) as (b_y & <- & <- & Fy).
  assert (Q : SFsub prec emax (B2SF bx) (B2SF b_y) = B2SF (Bminus mode_NE bx b_y)).
  { destruct bx, b_y; try reflexivity; try discriminate; [cbn; destruct (Bool.eqb s (negb s0)); reflexivity|].
    cbn. unfold Z.sub. rewrite <- cond_Zopp_negb. apply normalize_equiv. }
  rewrite Q. pose proof (Bminus_correct prec emax _ _ mode_NE bx b_y Fx Fy) as C.
  rewrite Rlt_bool_true in C by exact L. destruct C as (C1 & C2 & _).
  pose proof (lower _ C2) as W. rewrite C1 in W. exact W.
Qed.

Lemma norm_ok : forall m e z, Rabs (RN (F2R (Float radix2 m e))) < bpow radix2 emax ->
  isF (SpecFloat.binary_normalize prec emax m e z) (RN (F2R (Float radix2 m e))).
Proof.
  intros m e z L. rewrite normalize_equiv.
  pose proof (binary_normalize_correct prec emax _ _ mode_NE m e z) as C. cbv zeta in C.
  rewrite Rlt_bool_true in C by exact L. destruct C as (C1 & C2 & _).
  pose proof (lower _ C2) as W. rewrite C1 in W. exact W.
Qed.

Lemma RN_mono : forall a b, a <= b -> RN a <= RN b.
Proof. intros. apply round_le; [apply FLT_exp_valid; exact Hp|apply valid_rnd_N|assumption]. Qed.

Lemma format_bpow : forall k, (emin <= k)%Z -> generic_format radix2 (FLT_exp emin prec) (bpow radix2 k).
Proof.
  intros k L. apply generic_format_FLT_bpow; [exact Hp|exact L].
Qed.
Lemma RN_bound : forall k a, (emin <= k)%Z -> Rabs a <= bpow radix2 k -> Rabs (RN a) <= bpow radix2 k.
Proof.
  intros k a L B. apply abs_round_le_generic; [apply FLT_exp_valid; exact Hp|apply valid_rnd_N| |exact B].
  apply format_bpow. exact L.
Qed.

Lemma RN_0 : RN 0 = 0.
Proof. apply round_0. apply valid_rnd_N. Qed.

Lemma RN_rel : forall a, a = 0 \/ bpow radix2 (emin + prec - 1) <= Rabs a ->
  Rabs (RN a - a) <= bpow radix2 (- prec) * Rabs a.
Proof.
  intros a [-> |L].
  - rewrite RN_0. rewrite Rminus_0_r, Rabs_R0. lra.
  - pose proof (relative_error_N_FLT radix2 emin prec Hp (fun x => negb (Z.even x)) a L) as W.
    replace (bpow radix2 (- prec)) with (/ 2 * bpow radix2 (- prec + 1)).
    + exact W.
    + rewrite bpow_plus. change (bpow radix2 1) with 2. lra.
Qed.

(** Numbers of the format are not changed by rounding *)
Lemma RN_exact : forall x r, isF x r -> RN r = r.
Proof.
  intros x r X. destruct (lift _ _ X) as (b & _ & <- & _).
  apply round_generic; [apply valid_rnd_N|]. apply generic_format_B2R.
Qed.

Lemma isF_lt : forall x r, isF x r -> Rabs r < bpow radix2 emax.
Proof. intros x r X. destruct (lift _ _ X) as (b & _ & <- & _). apply abs_B2R_lt_emax. Qed.

Lemma isF_fun : forall x r r', isF x r -> isF x r' -> r = r'.
Proof. intros x r r' (_ & _ & <-) (_ & _ & <-). reflexivity. Qed.

End Format.
