(** C54: whole numbers up to 2^24 are kept exactly. *)
From Coq Require Import QArith ZArith SpecFloat.
From Verif Require Import Prim Lib Float SpecReal Pf_Values7.
From Coq Require Import Lia ZifyBool ZifyN ZifyNat.
Local Open Scope Z_scope.

Lemma shift_succ : forall d m, shift_pos (Pos.succ d) m = xO (shift_pos d m).
Proof. intros d m. unfold shift_pos. rewrite !Pos2Nat.inj_iter, Pos2Nat.inj_succ. reflexivity. Qed.
Lemma digits_shift : forall d m, digits2_pos (shift_pos d m) = (digits2_pos m + d)%positive.
Proof.
  induction d as [|d IH] using Pos.peano_ind; intros m.
  - cbn. lia.
  - rewrite shift_succ. cbn [digits2_pos]. rewrite IH. lia.
Qed.
Lemma value_shift : forall d m, Zpos (shift_pos d m) = Zpos m * 2 ^ Zpos d.
Proof.
  induction d as [|d IH] using Pos.peano_ind; intros m.
  - unfold shift_pos. cbn. lia.
  - rewrite shift_succ, Pos2Z.inj_xO, IH, Pos2Z.inj_succ, Z.pow_succ_r by lia. lia.
Qed.
Lemma digits_bound : forall m, 2 ^ (Zpos (digits2_pos m) - 1) <= Zpos m < 2 ^ Zpos (digits2_pos m).
Proof.
  induction m as [m IH|m IH|]; cbn [digits2_pos]; [| |cbn; lia];
    rewrite Pos2Z.inj_succ; rewrite Z.pow_succ_r by lia;
    replace (Z.succ (Zpos (digits2_pos m)) - 1) with (Z.succ (Zpos (digits2_pos m) - 1)) by lia; rewrite Z.pow_succ_r by lia; lia.
Qed.
Lemma round_exact : forall m, Zpos (digits2_pos m) = 24 -> forall e, -149 <= e <= 0 -> binary_round_aux 24 128 false (Zpos m) e loc_Exact = S754_finite false m e.
Proof.
  intros m D e B. unfold binary_round_aux.
  assert (S : shr_fexp 24 128 (Zpos m) e loc_Exact = ({| shr_m := Zpos m; shr_r := false; shr_s := false |}, e)).
  { unfold shr_fexp. cbn [Zdigits2]. rewrite D. unfold fexp, emin.
    replace (Z.max (24 + e - 24) (3 - 128 - 24) - e) with 0 by lia. reflexivity. }
  rewrite S. cbn [shr_m loc_of_shr_record shr_r shr_s round_nearest_even]. rewrite S. cbn [shr_m].
  replace (e <=? 128 - 24) with true by lia. reflexivity.
Qed.
Lemma normalize_exact : forall m, Zpos m < 2 ^ 24 -> is_exactly (binary_normalize 24 128 (Zpos m) 0 false) (Zpos m # 1).
Proof.
  intros m B. cbn [binary_normalize]. unfold binary_round.
  pose proof (digits_bound m) as D. set (d := digits2_pos m) in *.
  assert (L : Zpos d <= 24).
  { destruct (Z.le_gt_cases (Zpos d) 24) as [L|L]; [exact L|]. pose proof (Z.pow_le_mono_r 2 24 (Zpos d - 1) ltac:(lia) ltac:(lia)). lia. }
  assert (F : fexp 24 128 (Zpos d + 0) = Zpos d - 24) by (unfold fexp, emin; lia).
  rewrite F. unfold shl_align. rewrite Z.sub_0_r. destruct (Zpos d - 24) as [|k|k] eqn:E; [|lia|].
  - rewrite round_exact; [|unfold d in *; lia|lia]. exists (Zpos m # 1). split; [|reflexivity]. cbn [flt_value]. replace (0 <=? 0) with true by reflexivity. rewrite Z.mul_1_r. reflexivity.
  - rewrite round_exact; [|rewrite digits_shift; unfold d in *; lia|lia]. eexists. split; [reflexivity|].
    replace (0 <=? Zneg k) with false by lia. rewrite value_shift. unfold Qeq. cbn [Qnum Qden]. change (- Zneg k) with (Zpos k).
    rewrite Z2Pos.id by lia. lia.
Qed.
Lemma of_N_exact : forall v, (v <= 16777216)%N -> is_exactly (f32_of_N v) (parts v 1).
Proof.
  intros v B. destruct (N.eq_dec v 16777216) as [->|Z].
  - apply exactb_exact. vm_compute. reflexivity.
  - unfold f32_of_N, f32_of_Z, parts. destruct v as [|m]; [apply exactb_exact; reflexivity|]. cbn [Z.of_N]. apply normalize_exact. lia.
Qed.
