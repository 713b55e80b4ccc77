(** Proofs for C70: numbers shown with up to six digits *)
From Coq Require Import Lia Lqa ZArith NArith QArith Qabs Qpower String Ascii List.
From Verif Require Import Prim Lib Float Values Format SpecDecimal SpecNumeral SpecReal SpecShown SpecStream.
From Verif Require Import Pf_ExNumber Pf_ExShown.
From Verif Require Import Pf_WindWords.
From Verif Require Pf_Whole.
Local Open Scope string_scope.

(** ** The power of ten of the first digit *)
Lemma down_ok : forall f num den, (0 < den <= num)%Z -> (num < den * 10 ^ Z.of_nat f)%Z ->
  (0 <= exp10_down f num den)%Z /\ (den * 10 ^ exp10_down f num den <= num < den * 10 ^ (exp10_down f num den + 1))%Z.
Proof.
  induction f as [|f IH]; intros num den D L; [cbn in L; lia|]. cbn [exp10_down]. destruct (Z.ltb_spec num (den * 10)) as [H|H].
  - split; [lia|]. change (10 ^ 0)%Z with 1%Z. change (10 ^ (0 + 1))%Z with 10%Z. lia.
  - destruct (IH num (den * 10)%Z) as [P Q]; [lia|rewrite Nat2Z.inj_succ, Z.pow_succ_r in L by lia; lia|]. set (r := exp10_down f num (den * 10)) in *.
    split; [lia|]. rewrite !Z.pow_add_r in * by lia. change (10 ^ 1)%Z with 10%Z in *. lia.
Qed.
Lemma up_ok : forall f num den, (0 < num)%Z -> (0 < den)%Z -> (den <= num * 10 ^ Z.of_nat f)%Z ->
  (exp10_up f num den <= 0)%Z /\ (den <= num * 10 ^ (- exp10_up f num den))%Z
  /\ ((exp10_up f num den < 0)%Z -> (num * 10 ^ (- exp10_up f num den) < den * 10)%Z).
Proof.
  induction f as [|f IH]; intros num den N D L; [cbn [exp10_up]; cbn in L; split; [lia|]; split; [cbn; lia|lia]|]. cbn [exp10_up]. destruct (Z.leb_spec den num) as [H|H].
  - split; [lia|]. split; [cbn; lia|lia].
  - destruct (IH (num * 10)%Z den) as (P & Q & R); [lia|lia|rewrite Nat2Z.inj_succ, Z.pow_succ_r in L by lia; lia|]. set (r := exp10_up f (num * 10) den) in *.
    split; [lia|]. replace (- (r - 1))%Z with (1 + - r)%Z by lia. rewrite Z.pow_add_r by lia. change (10 ^ 1)%Z with 10%Z. split; [lia|]. intros _.
    destruct (Z.eq_dec r 0) as [E|E]; [rewrite E; cbn; lia|]. specialize (R ltac:(lia)). lia.
Qed.

Lemma ten_Z : forall z, (0 <= z)%Z -> (ten_to z == inject_Z (10 ^ z))%Q.
Proof. intros z H. unfold ten_to. rewrite Zpower_Qpower by exact H. reflexivity. Qed.
Lemma ten_add : forall a b, (ten_to (a + b) == ten_to a * ten_to b)%Q.
Proof. intros a b. unfold ten_to. apply Qpower_plus. intros E. discriminate E. Qed.
Lemma ten_pos : forall z, (0 < ten_to z)%Q.
Proof.
  intros z. unfold ten_to. destruct z as [|p|p]; [reflexivity| |].
  - rewrite <- (Zpower_Qpower 10 (Zpos p)) by discriminate. change 0%Q with (inject_Z 0). rewrite <- Zlt_Qlt. apply Z.pow_pos_nonneg; lia.
  - change (Qpower (10 # 1) (Zneg p)) with (/ Qpower (10 # 1) (Zpos p))%Q. apply Qinv_lt_0_compat.
    rewrite <- (Zpower_Qpower 10 (Zpos p)) by discriminate. change 0%Q with (inject_Z 0). rewrite <- Zlt_Qlt. apply Z.pow_pos_nonneg; lia.
Qed.
Lemma ten_opp : forall z, (ten_to z * ten_to (- z) == 1)%Q.
Proof. intros z. rewrite <- ten_add. replace (z + - z)%Z with 0%Z by lia. reflexivity. Qed.

Lemma frac : forall num p, (num # p == inject_Z num * / inject_Z (Zpos p))%Q.
Proof. intros num p. unfold Qeq, Qmult, Qinv, inject_Z; cbn. lia. Qed.
Lemma frac_mul : forall num p, ((num # p) * inject_Z (Zpos p) == inject_Z num)%Q.
Proof. intros num p. unfold Qeq, Qmult, inject_Z; cbn. lia. Qed.
Lemma le_frac : forall a num p, (a * Zpos p <= num)%Z -> (inject_Z a <= num # p)%Q.
Proof. intros a num p H. unfold Qle, inject_Z; cbn [Qnum Qden]. lia. Qed.
Lemma decade : forall num p, (0 < num)%Z -> (Zpos p <= num * 10 ^ 50)%Z -> (num < Zpos p * 10 ^ 50)%Z ->
  (ten_to (exp10 num (Zpos p)) <= num # p)%Q /\ (num # p < ten_to (exp10 num (Zpos p) + 1))%Q.
Proof.
  intros num p N L U. unfold exp10. destruct (Z.ltb_spec num (Zpos p)) as [H|H].
  - destruct (up_ok 50 num (Zpos p) N ltac:(lia) L) as (P & Q & R). set (x := exp10_up 50 num (Zpos p)) in *.
    assert (X : (x < 0)%Z). { destruct (Z.eq_dec x 0) as [E|E]; [|lia]. rewrite E in Q. change (- 0)%Z with 0%Z in Q. rewrite Z.pow_0_r in Q. lia. }
    specialize (R X). pose proof (ten_opp x) as O. pose proof (ten_pos x) as T. pose proof (ten_pos (- x)) as T'.
    assert (E : (ten_to (- x) == inject_Z (10 ^ (- x)))%Q) by (apply ten_Z; lia).
    assert (A : (1 <= (num # p) * ten_to (- x))%Q). { rewrite E. unfold Qle, Qmult, inject_Z; cbn [Qnum Qden]. rewrite Pos.mul_1_r. lia. }
    assert (B : ((num # p) * ten_to (- x) < 10 # 1)%Q). { rewrite E. unfold Qlt, Qmult, inject_Z; cbn [Qnum Qden]. rewrite Pos.mul_1_r. lia. }
    rewrite ten_add. change (ten_to 1) with (10 # 1)%Q.
    set (q := num # p) in *. set (t := ten_to x) in *. set (u := ten_to (- x)) in *.
    assert (K : (q == q * u * t)%Q) by (rewrite <- Qmult_assoc, (Qmult_comm u t), O; ring).
    split; [rewrite K|rewrite K, (Qmult_comm t)].
    + rewrite <- (Qmult_1_l t) at 1. apply Qmult_le_compat_r; [exact A|lra].
    + apply Qmult_lt_r; [exact T|exact B].
  - destruct (down_ok 50 num (Zpos p) ltac:(lia) U) as (P & Q). set (x := exp10_down 50 num (Zpos p)) in *.
    rewrite !ten_Z by lia. unfold Qle, Qlt, inject_Z; cbn [Qnum Qden]. lia.
Qed.

(** ** Rounding *)
Lemma half_close : forall a b p, (2 * Z.abs (a * Zpos p - b) <= Zpos p)%Z -> (Qabs (inject_Z a - (b # p)) <= 1 # 2)%Q.
Proof.
  intros a b p H. apply Qabs_Qle_condition. unfold Qle, Qminus, Qplus, Qopp, inject_Z; cbn [Qnum Qden]. rewrite ?Pos.mul_1_l. split; lia.
Qed.
Lemma scaled_close : forall num p k, (Qabs (inject_Z (scaled num (Zpos p) k) - (num # p) * ten_to k) <= 1 # 2)%Q.
Proof.
  intros num p k. unfold scaled. destruct (Z.leb_spec 0 k) as [K|K].
  - assert (E : ((num # p) * ten_to k == (num * 10 ^ k) # p)%Q) by (rewrite (ten_Z k K); unfold Qeq, Qmult, inject_Z; cbn [Qnum Qden]; rewrite Pos.mul_1_r; lia).
    rewrite E. apply half_close, nearest_close. lia.
  - assert (P : (0 < 10 ^ (- k))%Z) by (apply Z.pow_pos_nonneg; lia).
    assert (W : exists w, Zpos w = (10 ^ (- k))%Z) by (exists (Z.to_pos (10 ^ (- k))); apply Z2Pos.id, P). destruct W as (w & W). rewrite <- W.
    assert (E : ((num # p) * ten_to k == num # (p * w))%Q).
    { pose proof (ten_opp k) as O. rewrite (ten_Z (- k)) in O by lia. rewrite <- W in O.
      assert (Z : (num # p == (num # (p * w)) * inject_Z (Zpos w))%Q) by (unfold Qeq, Qmult, inject_Z; cbn [Qnum Qden]; rewrite Pos.mul_1_r, Pos2Z.inj_mul; lia).
      rewrite Z, <- Qmult_assoc, (Qmult_comm (inject_Z _)), O. ring. }
    rewrite E. change (Zpos p * Zpos w)%Z with (Zpos (p * w)). apply half_close, nearest_close. lia.
Qed.

(** ** The digits after the point *)
Fixpoint zeros (k : nat) : string := match k with O => "" | S k' => String "0"%char (zeros k') end.
Lemma zeros_snoc : forall k, zeros k ++ "0" = zeros (S k).
Proof. induction k as [|k IH]; [reflexivity|]. cbn [zeros append]. f_equal. exact IH. Qed.
Lemma last_char : forall s, s = "" \/ exists t c, s = t ++ String c "".
Proof.
  induction s as [|c s IH]; [left; reflexivity|right]. destruct IH as [->|(t & d & ->)]; [exists "", c; reflexivity|]. exists (String c t), d. reflexivity.
Qed.
Lemma split_zeros : forall n b, String.length b = n -> exists c k, b = c ++ zeros k /\ forall t, c <> t ++ "0".
Proof.
  induction n as [|n IH]; intros b L.
  - destruct b; [|discriminate L]. exists "", 0%nat. split; [reflexivity|]. intros [|? ?]; discriminate.
  - destruct (last_char b) as [->|(t & c & ->)]; [discriminate L|].
    destruct (Ascii.eqb_spec c "0"%char) as [->|H].
    + destruct (IH t) as (d & k & -> & N). { pose proof (slen_app t "0") as W. unfold slen in W. rewrite W in L. cbn in L. lia. }
      exists d, (S k). split; [|exact N]. rewrite app_assoc_s, zeros_snoc. reflexivity.
    + exists (t ++ String c ""), 0%nat. split; [cbn [zeros]; rewrite app_empty_r; reflexivity|]. intros u E. apply H.
      revert E. clear. revert u. induction t as [|x t IH]; intros u E.
      * destruct u as [|y u]; [injection E as ->; reflexivity|]. destruct u; discriminate E.
      * destruct u as [|y u]; [destruct t; discriminate E|]. injection E as -> E. exact (IH u E).
Qed.
Lemma srev_acc : forall s acc, srev s acc = srev s "" ++ acc.
Proof. induction s as [|c s IH]; intros acc; [reflexivity|]. cbn [srev]. rewrite IH, (IH (String c "")), app_assoc_s. reflexivity. Qed.
Lemma srev_app : forall a b, srev (a ++ b) "" = srev b "" ++ srev a "".
Proof.
  induction a as [|c a IH]; intros b; [rewrite app_empty_r; reflexivity|]. cbn [append srev]. rewrite srev_acc, IH, (srev_acc a (String c "")), app_assoc_s. reflexivity.
Qed.
Lemma srev_twice : forall s, srev (srev s "") "" = s.
Proof. induction s as [|c s IH]; [reflexivity|]. cbn [srev]. rewrite (srev_acc s (String c "")), srev_app, IH. reflexivity. Qed.
Lemma srev_zeros : forall k, srev (zeros k) "" = zeros k.
Proof. induction k as [|k IH]; [reflexivity|]. cbn [zeros srev]. rewrite srev_acc, IH. apply zeros_snoc. Qed.
Lemma drop_zeros_app : forall k s, drop_zeros (zeros k ++ s) = drop_zeros s.
Proof. induction k as [|k IH]; intros s; [reflexivity|]. cbn [zeros append drop_zeros]. apply IH. Qed.
Lemma trim_text : forall a b k v, decimal b = Some v -> (forall t, b <> t ++ "0") ->
  trim_fraction (a ++ "." ++ b ++ zeros k) = match b with "" => a | _ => a ++ "." ++ b end.
Proof.
  intros a b k v D N. unfold trim_fraction.
  replace (a ++ "." ++ b ++ zeros k) with ((a ++ "." ++ b) ++ zeros k) by (rewrite !app_assoc_s; reflexivity).
  rewrite srev_app, srev_zeros, drop_zeros_app. destruct (last_char b) as [->|(t & c & ->)].
  - rewrite app_assoc_s || idtac. rewrite srev_app. cbn [append srev drop_zeros]. apply srev_twice.
  - assert (E : srev (a ++ "." ++ t ++ String c "") "" = String c (srev (a ++ "." ++ t) "")).
    { replace (a ++ "." ++ t ++ String c "") with ((a ++ "." ++ t) ++ String c "") by (rewrite !app_assoc_s; reflexivity). rewrite srev_app. reflexivity. }
    rewrite E. assert (C0 : c <> "0"%char) by (intros ->; exact (N t eq_refl)).
    assert (CP : c <> "."%char). { intros ->. rewrite decimal_split in D. destruct (decimal t); discriminate D. }
    assert (Z : drop_zeros (String c (srev (a ++ "." ++ t) "")) = String c (srev (a ++ "." ++ t) "")).
    { cbn [drop_zeros]. destruct c as [[] [] [] [] [] [] [] []]; try reflexivity; exfalso; apply C0; reflexivity. }
    rewrite Z. transitivity (srev (String c (srev (a ++ "." ++ t) "")) "").
    + destruct c as [[] [] [] [] [] [] [] []]; try reflexivity; exfalso; apply CP; reflexivity.
    + rewrite <- E, srev_twice. destruct t; reflexivity.
Qed.
Lemma decimal_zeros : forall k, decimal (zeros k) = Some 0%N.
Proof. induction k as [|k IH]; [reflexivity|]. cbn [zeros]. change (String "0" (zeros k)) with ("0" ++ zeros k). rewrite decimal_split, IH. reflexivity. Qed.
Lemma zeros_length : forall k, String.length (zeros k) = k.
Proof. induction k as [|k IH]; [reflexivity|]. cbn. rewrite IH. reflexivity. Qed.

Lemma point_text : forall k d, (0 <= d)%Z -> (0 < k)%nat -> exists n j, with_fraction (trim_fraction (dec_point k d)) n j
  /\ (fraction n j == inject_Z d * ten_to (- Z.of_nat k))%Q.
Proof.
  intros k d D K. destruct k as [|k']; [lia|]. set (k := S k') in *. unfold dec_point. unfold k at 2.
  pose proof (digits_numeral k d D) as [L V]. destruct (split_zeros _ _ L) as (b & z & E & N).
  assert (P : (0 < 10 ^ Z.of_nat k)%Z) by (apply Z.pow_pos_nonneg; lia).
  set (a := dec_N (Z.to_N (d / 10 ^ Z.of_nat k))).
  assert (A : decimal a = Some (Z.to_N (d / 10 ^ Z.of_nat k))) by apply decimal_dec.
  pose proof (Z.div_pos d _ D P) as Q0. pose proof (Z.mod_pos_bound d _ P) as R0. pose proof (Z.div_mod d (10 ^ Z.of_nat k) ltac:(lia)) as DM.
  change (S k') with k. rewrite E. rewrite E, decimal_split, decimal_zeros in V. destruct (decimal b) as [vb|] eqn:B; [|discriminate V]. injection V as V.
  pose proof (slen_app b (zeros z)) as W. unfold slen in W. rewrite E, W, zeros_length in L. unfold slen in V. rewrite zeros_length in V.
  rewrite (trim_text a b z vb B N). exists (Z.to_N (d / 10 ^ Z.of_nat k) * 10 ^ N.of_nat (slen b) + vb)%N, (String.length b). split.
  - exists a, b. repeat split; try assumption; [apply dec_nonempty|]. rewrite decimal_split, A, B. reflexivity.
  - unfold fraction.
    assert (M : (Z.of_N (Z.to_N (d / 10 ^ Z.of_nat k) * 10 ^ N.of_nat (slen b) + vb) * 10 ^ Z.of_nat z = d)%Z).
    { rewrite N2Z.inj_add, N2Z.inj_mul, N2Z.inj_pow, Z2N.id, nat_N_Z by lia. change (Z.of_N 10) with 10%Z. unfold slen.
      assert (VZ : (Z.of_N vb * 10 ^ Z.of_nat z = d mod 10 ^ Z.of_nat k)%Z). { apply (f_equal Z.of_N) in V. rewrite N2Z.inj_add, N2Z.inj_mul, N2Z.inj_pow, nat_N_Z, Z2N.id in V by lia. change (Z.of_N 10) with 10%Z in V. change (Z.of_N 0) with 0%Z in V. rewrite Z.add_0_r in V. exact V. }
      rewrite Z.mul_add_distr_r, VZ, <- Z.mul_assoc, <- Z.pow_add_r by lia. replace (Z.of_nat (String.length b) + Z.of_nat z)%Z with (Z.of_nat k) by (unfold slen in L; lia). lia. }
    rewrite <- M at 2. rewrite inject_Z_mult, <- (ten_Z (Z.of_nat z)), <- Qmult_assoc, <- ten_add by lia.
    replace (Z.of_nat z + - Z.of_nat k)%Z with (- Z.of_nat (String.length b))%Z by (unfold slen in L; lia). reflexivity.
Qed.

(** ** The text *)
Lemma ten_le : forall a b, (a <= b)%Z -> (ten_to a <= ten_to b)%Q.
Proof.
  intros a b H. replace b with (a + (b - a))%Z by lia. rewrite ten_add. rewrite <- (Qmult_1_r (ten_to a)) at 1. apply Qmult_le_l; [apply ten_pos|].
  rewrite ten_Z by lia. change 1%Q with (inject_Z 1). rewrite <- Zle_Qle. assert (0 < 10 ^ (b - a))%Z by (apply Z.pow_pos_nonneg; lia). lia.
Qed.
Lemma sized : forall d k, (100000 <= d < 1000000)%Z -> (ten_to k <= inject_Z d * ten_to (k - 5))%Q /\ (inject_Z d * ten_to (k - 5) < ten_to (k + 1))%Q.
Proof.
  intros d k [L U]. pose proof (ten_pos (k - 5)) as P. split.
  - replace k with (5 + (k - 5))%Z at 1 by lia. rewrite ten_add. apply Qmult_le_compat_r; [|lra]. rewrite ten_Z by lia. rewrite <- Zle_Qle. exact L.
  - replace (k + 1)%Z with (6 + (k - 5))%Z by lia. rewrite ten_add. apply Qmult_lt_r; [exact P|]. rewrite ten_Z by lia. rewrite <- Zlt_Qlt. exact U.
Qed.
Definition digits_at (d ex : Z) : string :=
  if (-4 <=? ex)%Z && (ex <? 6)%Z then
    if (ex =? 5)%Z then dec_N (Z.to_N d) else trim_fraction (dec_point (Z.to_nat (5 - ex)) d)
  else
    trim_fraction (dec_point 5 d) ++ (if (ex <? 0)%Z then "e-" else "e+") ++
    (if (Z.abs ex <? 10)%Z then "0" else "") ++ dec_N (Z.to_N (Z.abs ex)).
Lemma text_ok : forall d ex, (100000 <= d < 1000000)%Z -> stands_for (digits_at d ex) (inject_Z d * ten_to (ex - 5)).
Proof.
  intros d ex B. destruct (sized d ex B) as [SL SU]. unfold digits_at. destruct (Z.leb_spec (-4) ex) as [L|L]; [destruct (Z.ltb_spec ex 6) as [U|U]|]; cbn [andb].
  - assert (Q1 : (ten_to (-4) <= inject_Z d * ten_to (ex - 5))%Q) by (apply (Qle_trans _ (ten_to ex)); [apply ten_le; exact L|exact SL]).
    assert (Q2 : (inject_Z d * ten_to (ex - 5) < ten_to 6)%Q) by (apply (Qlt_le_trans _ (ten_to (ex + 1))); [exact SU|apply ten_le; lia]).
    destruct (Z.eqb_spec ex 5) as [->|E].
    + exists (dec_N (Z.to_N d)), (Z.to_N d), 0%nat. split.
      * exists (dec_N (Z.to_N d)), "". split; [apply dec_nonempty|]. rewrite app_empty_r, decimal_dec. split; [reflexivity|]. split; [reflexivity|]. split; [intros [|? ?]; discriminate|reflexivity].
      * left. split; [exact Q1|]. split; [exact Q2|]. split; [reflexivity|]. unfold fraction. rewrite Z2N.id by lia. reflexivity.
    + destruct (point_text (Z.to_nat (5 - ex)) d ltac:(lia) ltac:(lia)) as (n & j & W & V). exists (trim_fraction (dec_point (Z.to_nat (5 - ex)) d)), n, j. split; [exact W|]. left.
      split; [exact Q1|]. split; [exact Q2|]. split; [reflexivity|]. rewrite V. replace (- Z.of_nat (Z.to_nat (5 - ex)))%Z with (ex - 5)%Z by lia. reflexivity.
  - destruct (point_text 5 d ltac:(lia) ltac:(lia)) as (n & j & W & V). exists (trim_fraction (dec_point 5 d)), n, j. split; [exact W|]. right.
    split; [right; apply (Qle_trans _ (ten_to ex)); [apply ten_le; exact U|exact SL]|]. destruct (sized d 0 B) as [Z1 Z2]. change (0 - 5)%Z with (- Z.of_nat 5)%Z in Z1, Z2.
    split; [rewrite V; exact Z1|]. split; [rewrite V; exact Z2|].
    exists ((if (Z.abs ex <? 10)%Z then "0" else "") ++ dec_N (Z.to_N (Z.abs ex))), (Z.to_N (Z.abs ex)). split.
    + split; [destruct (Z.abs ex <? 10)%Z; [discriminate|apply dec_nonempty]|]. rewrite decimal_split, decimal_dec. destruct (Z.abs ex <? 10)%Z; cbn; reflexivity.
    + left. destruct (Z.ltb_spec ex 0) as [N|N]; [lia|]. split; [reflexivity|]. rewrite V, <- Qmult_assoc, <- ten_add. replace (- Z.of_nat 5 + Z.of_N (Z.to_N (Z.abs ex)))%Z with (ex - 5)%Z by lia. reflexivity.
  - destruct (point_text 5 d ltac:(lia) ltac:(lia)) as (n & j & W & V). exists (trim_fraction (dec_point 5 d)), n, j. split; [exact W|]. right.
    split; [left; apply (Qlt_le_trans _ (ten_to (ex + 1))); [exact SU|apply ten_le; lia]|]. destruct (sized d 0 B) as [Z1 Z2]. change (0 - 5)%Z with (- Z.of_nat 5)%Z in Z1, Z2.
    split; [rewrite V; exact Z1|]. split; [rewrite V; exact Z2|].
    exists ((if (Z.abs ex <? 10)%Z then "0" else "") ++ dec_N (Z.to_N (Z.abs ex))), (Z.to_N (Z.abs ex)). split.
    + split; [destruct (Z.abs ex <? 10)%Z; [discriminate|apply dec_nonempty]|]. rewrite decimal_split, decimal_dec. destruct (Z.abs ex <? 10)%Z; cbn; reflexivity.
    + right. destruct (Z.ltb_spec ex 0) as [N|N]; [|lia]. split; [reflexivity|]. rewrite V, <- Qmult_assoc, <- ten_add. replace (- Z.of_nat 5 + - Z.of_N (Z.to_N (Z.abs ex)))%Z with (ex - 5)%Z by lia. reflexivity.
Qed.

(** ** Six digits *)
Lemma near_int : forall d y, (Qabs (inject_Z d - y) <= 1 # 2)%Q -> (inject_Z d - (1 # 2) <= y /\ y <= inject_Z d + (1 # 2))%Q.
Proof. intros d y H. apply Qabs_Qle_condition in H. destruct H. split; lra. Qed.
Lemma int_gt : forall a b, (inject_Z a < inject_Z b + (1 # 2))%Q -> (a <= b)%Z.
Proof. intros a b H. unfold Qlt, Qplus, inject_Z in H; cbn [Qnum Qden] in H. lia. Qed.
Lemma six_ok : forall num p, (0 < num)%Z -> (Zpos p <= num * 10 ^ 50)%Z -> (num < Zpos p * 10 ^ 50)%Z ->
  let x0 := exp10 num (Zpos p) in
  let d0 := scaled num (Zpos p) (5 - x0) in
  let carry := (1000000 <=? d0)%Z in
  let d := if carry then 100000%Z else d0 in
  let ex := if carry then (x0 + 1)%Z else x0 in
  (100000 <= d < 1000000)%Z /\ six_digits (inject_Z d * ten_to (ex - 5)) (num # p).
Proof.
  intros num p N L U. destruct (decade num p N L U) as [E1 E2]. cbv zeta. set (x := exp10 num (Zpos p)) in *. pose proof (scaled_close num p (5 - x)) as C.
  set (d0 := scaled num (Zpos p) (5 - x)) in *. set (q := num # p) in *. set (y := (q * ten_to (5 - x))%Q) in *.
  pose proof (ten_pos (5 - x)) as P. pose proof (ten_pos (x - 5)) as P'. apply near_int in C as C'. destruct C' as [C1 C2].
  assert (Y1 : (inject_Z 100000 <= y)%Q).
  { change 100000%Z with (10 ^ 5)%Z. rewrite <- ten_Z by lia. replace 5%Z with (x + (5 - x))%Z at 1 by lia. rewrite ten_add. apply Qmult_le_compat_r; [exact E1|lra]. }
  assert (Y2 : (y < inject_Z 1000000)%Q).
  { change 1000000%Z with (10 ^ 6)%Z. rewrite <- ten_Z by lia. replace 6%Z with (x + 1 + (5 - x))%Z by lia. rewrite ten_add. apply Qmult_lt_r; [exact P|exact E2]. }
  assert (D1 : (100000 <= d0)%Z).
  { destruct (Z_lt_le_dec d0 100000) as [H|H]; [|exact H]. exfalso. assert (Z : (d0 <= 99999)%Z) by lia. rewrite Zle_Qle in Z. change (inject_Z 99999) with (99999 # 1)%Q in Z. change (inject_Z 100000) with (100000 # 1)%Q in Y1. lra. }
  assert (D2 : (d0 <= 1000000)%Z).
  { destruct (Z_lt_le_dec 1000000 d0) as [H|H]; [|exact H]. exfalso. assert (Z : (1000001 <= d0)%Z) by lia. rewrite Zle_Qle in Z. change (inject_Z 1000001) with (1000001 # 1)%Q in Z. change (inject_Z 1000000) with (1000000 # 1)%Q in Y2. lra. }
  set (d := if (1000000 <=? d0)%Z then 100000%Z else d0). set (ex := if (1000000 <=? d0)%Z then (x + 1)%Z else x).
  assert (V : (inject_Z d * ten_to (ex - 5) == inject_Z d0 * ten_to (x - 5))%Q).
  { unfold d, ex. destruct (Z.leb_spec 1000000 d0) as [H|H]; [|reflexivity]. replace d0 with 1000000%Z by lia. replace (x + 1 - 5)%Z with (1 + (x - 5))%Z by lia. rewrite ten_add, Qmult_assoc. reflexivity. }
  split; [unfold d; destruct (Z.leb_spec 1000000 d0); lia|].
  assert (O : (ten_to (5 - x) * ten_to (x - 5) == 1)%Q) by (rewrite <- ten_add; replace (5 - x + (x - 5))%Z with 0%Z by lia; reflexivity).
  assert (K : (q == y * ten_to (x - 5))%Q) by (unfold y; rewrite <- Qmult_assoc, O; ring).
  exists x. split; [exact E1|]. split; [exact E2|]. split.
  - rewrite V. rewrite K. setoid_replace (inject_Z d0 * ten_to (x - 5) - y * ten_to (x - 5))%Q with ((inject_Z d0 - y) * ten_to (x - 5))%Q by ring.
    rewrite Qabs_Qmult, (Qabs_pos (ten_to (x - 5))) by lra. apply Qmult_le_compat_r; [exact C|lra].
  - intros w W. rewrite V.
    assert (YW : (y == inject_Z w)%Q) by (unfold y; rewrite W, <- Qmult_assoc, (Qmult_comm (ten_to (x - 5))), O; ring).
    rewrite YW in C1, C2. assert (d0 = w) as ->. { clear - C1 C2. unfold Qle, Qminus, Qopp, Qplus, inject_Z in C1, C2; cbn [Qnum Qden] in C1, C2. lia. }
    rewrite W. reflexivity.
Qed.
Lemma stream_shown : forall x q, flt_value x = Some q -> (ten_to (-45) <= Qabs q)%Q -> (Qabs q < ten_to 45)%Q ->
  exists t v, stream_flt x = (if Qlt_le_dec q 0 then "-" else "") ++ t /\ stands_for t v /\ six_digits v (Qabs q).
Proof.
  intros x q V L U. destruct x as [s|s| |s m e]; try discriminate V.
  - injection V as <-. exfalso. apply (Qlt_not_le _ _ (ten_pos (-45))). exact L.
  - destruct (abs_value s m e q V) as (p & P & A & S). cbn [stream_flt]. cbv zeta. rewrite <- P.
    assert (N : (0 < flt_num m e)%Z) by (unfold flt_num; destruct (Z.leb_spec 0 e); [assert (0 < 2 ^ e)%Z by (apply Z.pow_pos_nonneg; lia); lia|lia]).
    set (num := flt_num m e) in *. rewrite A in *.
    assert (U' : (num < Zpos p * 10 ^ 50)%Z). { rewrite ten_Z in U by lia. unfold Qlt, inject_Z in U; cbn [Qnum Qden] in U. assert (10 ^ 45 < 10 ^ 50)%Z by reflexivity. nia. }
    assert (L' : (Zpos p <= num * 10 ^ 50)%Z).
    { change (ten_to (-45)) with (/ ten_to 45)%Q in L. change (ten_to 45) with (inject_Z (10 ^ 45)) in L. change (/ inject_Z (10 ^ 45))%Q with (1 # (Z.to_pos (10 ^ 45)))%Q in L.
      unfold Qle in L; cbn [Qnum Qden] in L. rewrite Z2Pos.id in L by reflexivity. assert (10 ^ 45 < 10 ^ 50)%Z by reflexivity. nia. }
    pose proof (six_ok num p N L' U') as R. cbv zeta in R. destruct R as [B R].
    exists (digits_at (if (1000000 <=? scaled num (Zpos p) (5 - exp10 num (Zpos p)))%Z then 100000%Z else scaled num (Zpos p) (5 - exp10 num (Zpos p)))
      (if (1000000 <=? scaled num (Zpos p) (5 - exp10 num (Zpos p)))%Z then (exp10 num (Zpos p) + 1)%Z else exp10 num (Zpos p))).
    eexists. split; [|split; [apply text_ok; exact B|exact R]]. unfold digits_at.
    assert (SG : sign_text s = if Qlt_le_dec q 0 then "-" else "").
    { destruct (Qlt_le_dec q 0) as [X|X]; destruct s; try reflexivity; exfalso; [exact (Qlt_irrefl _ (Qlt_trans _ _ _ X S))|exact (Qlt_not_le _ _ S X)]. }
    rewrite SG. reflexivity.
Qed.
Lemma ten_lt_inv : forall a b, (ten_to a < ten_to b)%Q -> (a < b)%Z.
Proof. intros a b H. destruct (Z_lt_le_dec a b) as [X|X]; [exact X|]. exfalso. exact (Qlt_not_le _ _ H (ten_le _ _ X)). Qed.
Lemma whole_fraction : forall s m k n, with_fraction s m k -> (fraction m k == inject_Z (Z.of_N n))%Q -> whole s n.
Proof.
  intros s m k n (a & b & A & D & L & N & ->) F.
  assert (M : m = (n * 10 ^ N.of_nat k)%N).
  { assert (X : (inject_Z (Z.of_N m) == inject_Z (Z.of_N n) * inject_Z (10 ^ Z.of_nat k))%Q).
    { rewrite <- F. unfold fraction. rewrite <- ten_Z by lia. rewrite <- Qmult_assoc, <- ten_add. replace (- Z.of_nat k + Z.of_nat k)%Z with 0%Z by lia. change (ten_to 0) with 1%Q. ring. }
    rewrite <- inject_Z_mult in X. apply (proj1 (inject_Z_injective _ _)) in X. apply N2Z.inj. rewrite N2Z.inj_mul, N2Z.inj_pow, nat_N_Z. exact X. }
  destruct (last_char b) as [->|(t & c & ->)].
  - cbn in L. subst k. rewrite app_empty_r in D. cbn [N.of_nat] in M. rewrite N.pow_0_r, N.mul_1_r in M. rewrite M in D. split; assumption.
  - exfalso. rewrite <- app_assoc_s, decimal_split in D. destruct (decimal (a ++ t)) as [x|]; [|discriminate D]. destruct (decimal (String c "")) as [y|] eqn:Y; [|discriminate D].
    injection D as D. change (slen (String c "")) with 1%nat in D. change (10 ^ N.of_nat 1)%N with 10%N in D.
    assert (K : exists j, k = S j). { pose proof (slen_app t (String c "")) as W. unfold slen in W. rewrite W in L. cbn in L. exists (k - 1)%nat. lia. }
    destruct K as (j & ->). rewrite Nat2N.inj_succ, N.pow_succ_r in M by lia.
    pose proof (Pf_Decimal.decimal_bound _ _ Y) as B. change (10 ^ N.of_nat (slen (String c "")))%N with 10%N in B.
    set (u := (n * 10 ^ N.of_nat j)%N). assert (M' : m = (10 * u)%N) by (unfold u; lia). clear M.
    assert (Y0 : y = 0%N) by lia. subst y.
    assert (C : c = "0"%char). { clear - Y. destruct c as [[] [] [] [] [] [] [] []]; try discriminate Y; reflexivity. }
    subst c. exact (N t eq_refl).
Qed.
Lemma whole_stream : forall n, (n < 1000000)%N -> whole (stream_flt (f32_of_N n)) n.
Proof.
  intros n B. destruct (N.eq_dec n 0) as [->|Z]; [split; [discriminate|reflexivity]|].
  destruct (Pf_Whole.of_N_exact n ltac:(lia)) as (q & V & E). change (parts n 1) with (inject_Z (Z.of_N n)) in E.
  assert (P1 : (1 <= q)%Q) by (rewrite E; change 1%Q with (inject_Z 1); rewrite <- Zle_Qle; lia).
  assert (P2 : (q < ten_to 6)%Q) by (rewrite E, ten_Z by lia; rewrite <- Zlt_Qlt; lia).
  assert (A : (Qabs q == q)%Q) by (apply Qabs_pos; lra).
  destruct (stream_shown _ _ V) as (t & v & T & S & X).
  - rewrite A. apply (Qle_trans _ (ten_to 0)); [apply ten_le; lia|exact P1].
  - rewrite A. apply (Qlt_le_trans _ (ten_to 6)); [exact P2|apply ten_le; lia].
  - rewrite T. destruct (Qlt_le_dec q 0) as [H|_]; [exfalso; lra|]. cbn [append].
    assert (Y : (v == inject_Z (Z.of_N n))%Q).
    { destruct X as (e & X1 & _ & _ & X). rewrite A in X1. assert (e < 6)%Z by (apply ten_lt_inv; apply (Qle_lt_trans _ q); [exact X1|exact P2]).
      rewrite (X (Z.of_N n * 10 ^ (5 - e))%Z); [rewrite A; exact E|]. rewrite A, E, inject_Z_mult, <- (ten_Z (5 - e)), <- Qmult_assoc, <- ten_add by lia.
      replace (5 - e + (e - 5))%Z with 0%Z by lia. change (ten_to 0) with 1%Q. ring. }
    destruct S as (m & nn & k & W & [(_ & _ & -> & F)|(F & _)]).
    + apply (whole_fraction m nn k); [exact W|]. rewrite <- F. exact Y.
    + exfalso. rewrite Y, <- E in F. destruct F as [F|F]; [|lra]. apply (Qlt_not_le _ _ F). apply (Qle_trans _ (ten_to 0)); [apply ten_le; lia|exact P1].
Qed.
