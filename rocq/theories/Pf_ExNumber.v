(** The texts of numbers denote the numbers (C68, C70). *)
From Coq Require Import DecimalString DecimalN Lia ZArith NArith List String QArith Qabs.
From Verif Require Import Prim Lib Float Format SpecDecimal SpecNumeral SpecReal SpecExplain Explain.
From Verif Require Import SpecShown Pf_ExBreaks Pf_WindWords.
Local Open Scope string_scope.
Local Open Scope N_scope.

Lemma acc_decimal : forall d acc, exists v, decimal (NilEmpty.string_of_uint d) = Some v
  /\ Npos (Pos.of_uint_acc d acc) = Npos acc * 10 ^ N.of_nat (String.length (NilEmpty.string_of_uint d)) + v.
Proof.
  assert (S10 : forall n, 10 ^ N.of_nat (S n) = 10 * 10 ^ N.of_nat n) by (intros n; rewrite Nat2N.inj_succ, N.pow_succ_r'; reflexivity).
  induction d as [|d IH|d IH|d IH|d IH|d IH|d IH|d IH|d IH|d IH|d IH]; intros acc; cbn [NilEmpty.string_of_uint decimal Pos.of_uint_acc String.length];
    try (match goal with |- context [Pos.of_uint_acc d ?a] => destruct (IH a) as (v & E & A) end; rewrite E; cbn [digit_of]; eexists; split; [reflexivity|]; rewrite A, S10;
         generalize (10 ^ N.of_nat (String.length (NilEmpty.string_of_uint d))); intros p; lia).
  exists 0. split; [reflexivity|]. cbn. lia.
Qed.
Lemma uint_decimal : forall d, decimal (NilEmpty.string_of_uint d) = Some (N.of_uint d).
Proof.
  unfold N.of_uint. induction d as [|d IH|d IH|d IH|d IH|d IH|d IH|d IH|d IH|d IH|d IH]; cbn [NilEmpty.string_of_uint decimal Pos.of_uint];
    try (match goal with |- context [Pos.of_uint_acc d ?a] => destruct (acc_decimal d a) as (v & E & A) end; rewrite E; cbn [digit_of]; f_equal; rewrite A; reflexivity).
  - reflexivity.
  - rewrite IH. reflexivity.
Qed.
Lemma decimal_dec : forall n, decimal (dec_N n) = Some n.
Proof. intros n. unfold dec_N. rewrite uint_decimal, Unsigned.of_to. reflexivity. Qed.

Lemma one_digit : forall n, n < 10 -> String.length (dec_N n) = 1%nat.
Proof.
  intros n H. assert (C : In n [0; 1; 2; 3; 4; 5; 6; 7; 8; 9]) by (cbn; lia).
  cbn in C. repeat (destruct C as [<-|C]; [reflexivity|]). destruct C.
Qed.
Lemma digits_numeral : forall k n, (0 <= n)%Z -> numeral k (dec_digits k n) (Z.to_N (n mod 10 ^ Z.of_nat k)).
Proof.
  induction k as [|k IH]; intros n H; [split; [reflexivity|rewrite Z.mod_1_r; reflexivity]|]. cbn [dec_digits].
  destruct (IH (n / 10)%Z ltac:(apply Z.div_pos; lia)) as [L D].
  pose proof (Z.mod_pos_bound n 10 ltac:(lia)) as B.
  assert (O : String.length (dec_N (Z.to_N (n mod 10))) = 1%nat) by (apply one_digit; lia).
  split; [change (slen (dec_digits k (n / 10) ++ dec_N (Z.to_N (n mod 10))) = S k); rewrite slen_app; unfold slen; rewrite L, O; lia|].
  rewrite decimal_split, D, decimal_dec. unfold slen. rewrite O. f_equal.
  rewrite Nat2Z.inj_succ, Z.pow_succ_r by lia.
  assert (P : (0 < 10 ^ Z.of_nat k)%Z) by (apply Z.pow_pos_nonneg; lia).
  rewrite (Z.rem_mul_r n 10 (10 ^ Z.of_nat k)) by lia. pose proof (Z.mod_pos_bound (n / 10) (10 ^ Z.of_nat k) P).
  change (10 ^ N.of_nat 1) with 10. lia.
Qed.
Lemma digits_length : forall k n, (0 <= n)%Z -> String.length (dec_digits k n) = k.
Proof. intros k n H. apply (digits_numeral k n H). Qed.
Lemma sub0_le : forall a b n, (n <= slen a)%nat -> substring 0 n (a ++ b) = substring 0 n a.
Proof. induction a as [|c a IH]; intros b [|n] H; try reflexivity; [destruct b; reflexivity|inversion H|]. apply le_S_n in H. cbn. rewrite (IH b n H). reflexivity. Qed.
Lemma sub0_all : forall a, substring 0 (slen a) a = a.
Proof. induction a as [|c a IH]; [reflexivity|]. change (String c (substring 0 (slen a) a) = String c a). rewrite IH. reflexivity. Qed.
Lemma digits_prefix : forall j d n, (0 <= n)%Z -> substring 0 d (dec_digits (j + d) n) = dec_digits d (n / 10 ^ Z.of_nat j).
Proof.
  induction j as [|j IH]; intros d n H.
  - cbn [Nat.add]. rewrite Z.div_1_r. rewrite <- (digits_length d n H) at 1. apply sub0_all.
  - cbn [Nat.add dec_digits]. rewrite sub0_le.
    + rewrite IH by (apply Z.div_pos; lia). rewrite Zdiv.Zdiv_Zdiv by lia. f_equal. f_equal. rewrite Nat2Z.inj_succ, Z.pow_succ_r by lia. reflexivity.
    + unfold slen. rewrite digits_length by (apply Z.div_pos; lia). lia.
Qed.
Lemma nearest_close : forall num den, (0 < den)%Z -> (2 * Z.abs (div_nearest_even num den * den - num) <= den)%Z.
Proof.
  intros num den H. unfold div_nearest_even. cbv zeta. pose proof (Z.div_mod num den ltac:(lia)) as E. pose proof (Z.mod_pos_bound num den H) as B.
  destruct (Z.ltb_spec (2 * (num mod den)) den); [lia|]. destruct (Z.ltb_spec den (2 * (num mod den))); [lia|]. destruct (Z.even _); lia.
Qed.
Lemma find_point : forall a v b i, decimal a = Some v -> sfind0 "."%char (a ++ "." ++ b) i = Some (slen a + i)%nat.
Proof.
  induction a as [|c a IH]; intros v b i H; [reflexivity|]. cbn [decimal] in H.
  destruct (digit_of c) as [x|] eqn:E; [|discriminate H]. destruct (decimal a) as [w|] eqn:F; [|discriminate H].
  change (sfind0 "."%char (String c a ++ "." ++ b) i) with (if Ascii.eqb "."%char c then Some i else sfind0 "."%char (a ++ "." ++ b) (S i)).
  destruct (Ascii.eqb_spec "."%char c) as [<-|]; [discriminate E|]. rewrite (IH _ b (S i) eq_refl). change (slen (String c a)) with (S (slen a)). f_equal. lia.
Qed.
Lemma sub0_past : forall a b n, substring 0 (slen a + n) (a ++ b) = a ++ substring 0 n b.
Proof. induction a as [|c a IH]; intros b n; [reflexivity|]. change (String c (substring 0 (slen a + n) (a ++ b)) = String c (a ++ substring 0 n b)). rewrite IH. reflexivity. Qed.
Lemma dec_nonempty : forall n, dec_N n <> "".
Proof.
  intros n E. pose proof (decimal_dec n) as D. rewrite E in D. injection D as <-. discriminate E.
Qed.
Lemma cut_point : forall s a v b d, decimal a = Some v -> (d <= slen b)%nat ->
  (match sfind "."%char (sign_text s ++ a ++ "." ++ b) 0 with
   | None => sign_text s ++ a ++ "." ++ b
   | Some pos => if Nat.ltb d (slen (sign_text s ++ a ++ "." ++ b) - pos) then substring 0 (pos + d + 1) (sign_text s ++ a ++ "." ++ b) else sign_text s ++ a ++ "." ++ b
   end) = sign_text s ++ a ++ "." ++ substring 0 d b.
Proof.
  intros s a v b d H L. unfold sfind. cbn [sdrop].
  assert (F : sfind0 "."%char (sign_text s ++ a ++ "." ++ b) 0 = Some (slen (sign_text s) + slen a)%nat).
  { destruct s; [|change (sfind0 "."%char (a ++ "." ++ b) 0 = Some (0 + slen a)%nat); rewrite (find_point a v b 0 H); f_equal; lia].
    change (sfind0 "."%char (a ++ "." ++ b) 1 = Some (1 + slen a)%nat). rewrite (find_point a v b 1 H). f_equal. lia. }
  rewrite F. rewrite !slen_app. change (slen ".") with 1%nat.
  destruct (Nat.ltb_spec d (slen (sign_text s) + (slen a + (1 + slen b)) - (slen (sign_text s) + slen a))); [|lia].
  replace (slen (sign_text s) + slen a + d + 1)%nat with (slen (sign_text s) + (slen a + (1 + d)))%nat by lia.
  rewrite sub0_past, sub0_past. reflexivity.
Qed.
Lemma point_digits : forall s n d, (0 <= n)%Z -> (1 <= d <= 6)%nat ->
  decimals d (sign_text s ++ dec_N (Z.to_N (n / 10 ^ 6)) ++ "." ++ substring 0 d (dec_digits 6 n)) s (Z.to_N (n / 10 ^ (6 - Z.of_nat d))).
Proof.
  intros s n d H D. exists (dec_N (Z.to_N (n / 10 ^ 6))), (dec_digits d (n / 10 ^ (6 - Z.of_nat d))), (Z.to_N (n / 10 ^ 6)), (Z.to_N (n / 10 ^ (6 - Z.of_nat d) mod 10 ^ Z.of_nat d)).
  pose proof (digits_prefix (6 - d) d n H) as P. replace (6 - d + d)%nat with 6%nat in P by lia. replace (Z.of_nat (6 - d)) with (6 - Z.of_nat d)%Z in P by lia.
  assert (B : (0 < 10 ^ (6 - Z.of_nat d))%Z) by (apply Z.pow_pos_nonneg; lia).
  assert (C : (0 < 10 ^ Z.of_nat d)%Z) by (apply Z.pow_pos_nonneg; lia).
  assert (N0 : (0 <= n / 10 ^ (6 - Z.of_nat d))%Z) by (apply Z.div_pos; lia).
  rewrite P. split; [destruct s; reflexivity|]. split; [apply dec_nonempty|]. split; [apply decimal_dec|]. split; [apply digits_numeral; exact N0|].
  replace (n / 10 ^ 6)%Z with (n / 10 ^ (6 - Z.of_nat d) / 10 ^ Z.of_nat d)%Z.
  - assert (Q : (0 <= n / 10 ^ (6 - Z.of_nat d) / 10 ^ Z.of_nat d)%Z) by (apply Z.div_pos; lia).
    pose proof (Z.div_mod (n / 10 ^ (6 - Z.of_nat d)) (10 ^ Z.of_nat d) ltac:(lia)) as E. pose proof (Z.mod_pos_bound (n / 10 ^ (6 - Z.of_nat d)) (10 ^ Z.of_nat d) C) as M.
    assert (X : Z.of_N (10 ^ N.of_nat d) = (10 ^ Z.of_nat d)%Z) by (rewrite N2Z.inj_pow, nat_N_Z; reflexivity).
    apply N2Z.inj. rewrite N2Z.inj_add, N2Z.inj_mul, X, !Z2N.id by lia. lia.
  - rewrite Zdiv.Zdiv_Zdiv, <- Z.pow_add_r by lia. f_equal. f_equal. lia.
Qed.
Lemma round_text : forall x, match x with
  | S754_zero s => forall d, (1 <= d <= 6)%nat -> decimals d (roundTo x d) s 0
  | S754_finite s m e => forall d, (1 <= d <= 6)%nat -> decimals d (roundTo x d) s (Z.to_N (div_nearest_even (flt_num m e * 1000000) (flt_den e) / 10 ^ (6 - Z.of_nat d)))
  | _ => True end.
Proof.
  intros [s|s| |s m e]; try exact I; intros d D.
  - unfold roundTo, to_string_flt. change "0.000000" with ("0" ++ "." ++ "000000"). cbv zeta.
    rewrite (cut_point s "0" 0 "000000" d eq_refl ltac:(cbn; lia)).
    pose proof (point_digits s 0 d ltac:(lia) D) as P. change (dec_N (Z.to_N (0 / 10 ^ 6))) with "0" in P. change (dec_digits 6 0) with "000000" in P.
    replace (0 / 10 ^ (6 - Z.of_nat d))%Z with 0%Z in P by (symmetry; apply Z.div_0_l, Z.pow_nonzero; lia). exact P.
  - unfold roundTo, to_string_flt. cbv zeta. unfold dec_point.
    set (n := div_nearest_even (flt_num m e * 1000000) (flt_den e)). change (Z.of_nat 6) with 6%Z.
    assert (D0 : (0 < flt_den e)%Z) by (unfold flt_den; destruct (0 <=? e)%Z eqn:E; [lia|apply Z.pow_pos_nonneg; lia]).
    assert (N0 : (0 <= flt_num m e)%Z) by (unfold flt_num; destruct (0 <=? e)%Z; lia).
    assert (H : (0 <= n)%Z) by (pose proof (nearest_close (flt_num m e * 1000000) (flt_den e) D0) as X; fold n in X; nia).
    rewrite (cut_point s (dec_N (Z.to_N (n / 10 ^ 6))) _ (dec_digits 6 n) d (decimal_dec _)) by (unfold slen; rewrite digits_length by exact H; lia).
    apply point_digits; assumption.
Qed.
Lemma abs_value : forall s m e q, flt_value (S754_finite s m e) = Some q -> exists p, Zpos p = flt_den e /\ Qabs q = (flt_num m e # p)%Q /\ (if s then (q < 0)%Q else (0 < q)%Q).
Proof.
  intros s m e q H. cbn [flt_value] in H. apply (f_equal (fun o => match o with Some x => x | None => q end)) in H. cbn beta iota in H. subst q.
  unfold flt_den, flt_num. destruct (0 <=? e)%Z eqn:E.
  - exists 1%positive. split; [reflexivity|]. assert (P : (0 < 2 ^ e)%Z) by (apply Z.pow_pos_nonneg; lia).
    split; [unfold inject_Z, Qabs; f_equal; destruct s; lia|]. destruct s; unfold Qlt, inject_Z; cbn [Qnum Qden]; nia.
  - assert (P : (0 < 2 ^ (- e))%Z) by (apply Z.pow_pos_nonneg; lia). exists (Z.to_pos (2 ^ (- e))). split; [apply Z2Pos.id; exact P|].
    split; [unfold Qabs; destruct s; reflexivity|]. destruct s; unfold Qlt; cbn [Qnum Qden]; lia.
Qed.
Lemma cut_bounds : forall num p d, (0 <= num)%Z -> (1 <= d <= 6)%nat ->
  let n := Z.to_N (div_nearest_even (num * 1000000) (Zpos p) / 10 ^ (6 - Z.of_nat d)) in
  (parts n (10 ^ Pos.of_nat d) - (1 # 2000000) <= num # p)%Q /\ (num # p < parts n (10 ^ Pos.of_nat d) + (1 # 10 ^ Pos.of_nat d))%Q.
Proof.
  intros num p d H D. cbv zeta. pose proof (nearest_close (num * 1000000) (Zpos p) ltac:(lia)) as C. set (n := div_nearest_even _ _) in *.
  assert (N0 : (0 <= n)%Z) by nia.
  set (k := (n / 10 ^ (6 - Z.of_nat d))%Z).
  assert (P : (0 < 10 ^ (6 - Z.of_nat d))%Z) by (apply Z.pow_pos_nonneg; lia).
  assert (K : (k * 10 ^ (6 - Z.of_nat d) <= n < k * 10 ^ (6 - Z.of_nat d) + 10 ^ (6 - Z.of_nat d))%Z).
  { pose proof (Z.div_mod n (10 ^ (6 - Z.of_nat d)) ltac:(lia)) as E. pose proof (Z.mod_pos_bound n (10 ^ (6 - Z.of_nat d)) P). fold k in E. lia. }
  assert (K0 : (0 <= k)%Z) by (apply Z.div_pos; lia).
  assert (KP : (k * 10 ^ (6 - Z.of_nat d) * Zpos p <= n * Zpos p)%Z) by nia.
  assert (KQ : (n * Zpos p + Zpos p <= (k + 1) * 10 ^ (6 - Z.of_nat d) * Zpos p)%Z) by nia.
  clearbody k n. clear P.
  assert (X : d = 1%nat \/ d = 2%nat \/ d = 3%nat \/ d = 4%nat \/ d = 5%nat \/ d = 6%nat) by lia.
  unfold parts. rewrite Z2N.id by exact K0.
  decompose [or] X; subst d;
    match goal with |- context [Pos.of_nat ?m] => let t := eval compute in (10 ^ Pos.of_nat m)%positive in change (10 ^ Pos.of_nat m)%positive with t end;
    match type of K with context [(10 ^ ?m)%Z] => let t := eval compute in (10 ^ m)%Z in change (10 ^ m)%Z with t in * end;
    unfold Qle, Qlt, Qminus, Qplus, Qopp; cbn [Qnum Qden]; rewrite ?Pos2Z.inj_mul; split; lia.
Qed.
Lemma round_shown : forall x q d, flt_value x = Some q -> (1 <= d <= 6)%nat -> exists minus n, decimals d (roundTo x d) minus n
  /\ ((q < 0)%Q -> minus = true) /\ (minus = true -> (q <= 0)%Q)
  /\ (parts n (10 ^ Pos.of_nat d) - (1 # 2000000) <= Qabs q)%Q /\ (Qabs q < parts n (10 ^ Pos.of_nat d) + (1 # 10 ^ Pos.of_nat d))%Q.
Proof.
  intros x q d V D. pose proof (round_text x) as T. destruct x as [s|s| |s m e]; try discriminate V.
  - exists s, 0. split; [exact (T d D)|]. injection V as <-. split; [intros X; discriminate X|]. split; [intros _; apply Qle_refl|].
    split; [unfold parts, Qle, Qminus, Qplus, Qopp; cbn [Qnum Qden]|unfold parts, Qlt, Qplus; cbn [Qnum Qden]]; cbn; lia.
  - exists s, (Z.to_N (div_nearest_even (flt_num m e * 1000000) (flt_den e) / 10 ^ (6 - Z.of_nat d))). split; [exact (T d D)|].
    destruct (abs_value s m e q V) as (p & P & A & S).
    split; [intros N; destruct s; [reflexivity|exfalso; exact (Qlt_irrefl _ (Qlt_trans _ _ _ N S))]|].
    split; [intros ->; apply Qlt_le_weak, S|]. rewrite A, <- P. apply cut_bounds; [|exact D].
    unfold flt_num. destruct (0 <=? e)%Z; lia.
Qed.
