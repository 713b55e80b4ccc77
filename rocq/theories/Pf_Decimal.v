(** Proofs about strToUint, fractionStrToUint and stoi (C20). *)
From Verif Require Import Prim Lib Pf_Ok SpecDecimal.
Local Open Scope string_scope.
Local Open Scope N_scope.

Lemma digit_of_spec : forall c,
  digit_of c = if is_digit c then Some (code c - 48) else None.
Proof. intros [[] [] [] [] [] [] [] []]; vm_compute; reflexivity. Qed.

Lemma is_digit_bound : forall c, is_digit c = true -> code c - 48 < 10.
Proof.
  intros c H; unfold is_digit in H; apply andb_true_iff in H; destruct H as [A B].
  apply N.leb_le in A, B; lia.
Qed.

Lemma decimal_bound : forall s v, decimal s = Some v -> v < 10 ^ N.of_nat (slen s).
Proof.
  induction s as [|c s IH]; intros v H; cbn [decimal] in H.
  - inv H; cbn; lia.
  - rewrite digit_of_spec in H; destruct (is_digit c) eqn:D; [|discriminate].
    destruct (decimal s) as [w|] eqn:E; [|discriminate]; inv H.
    specialize (IH w eq_refl); apply is_digit_bound in D.
    unfold slen in *; cbn [String.length]; rewrite Nat2N.inj_succ, N.pow_succ_r'.
    set (p := 10 ^ N.of_nat (String.length s)) in *; nia.
Qed.

Lemma decimal_all_digits : forall s, (exists v, decimal s = Some v) <-> all_digits s = true.
Proof.
  induction s as [|c s IH]; cbn [decimal all_digits].
  - split; eauto.
  - rewrite digit_of_spec; destruct (is_digit c); cbn [andb].
    + rewrite <- IH; split; intros [v H].
      * destruct (decimal s); [eauto | discriminate].
      * rewrite H; eauto.
    + split; [intros [v H]; discriminate | discriminate].
Qed.

Lemma dec_value_decimal : forall s acc v, decimal s = Some v ->
  dec_value s acc = acc * 10 ^ N.of_nat (slen s) + v.
Proof.
  induction s as [|c s IH]; intros acc v H; cbn [decimal dec_value] in *.
  - inv H; cbn; lia.
  - rewrite digit_of_spec in H; destruct (is_digit c) eqn:D; [|discriminate].
    destruct (decimal s) as [w|] eqn:E; [|discriminate]; inv H.
    rewrite (IH _ w eq_refl).
    unfold slen in *; cbn [String.length]; rewrite Nat2N.inj_succ, N.pow_succ_r'; lia.
Qed.

Lemma u32_add_mul : forall a b c, u32 (u32 a * b + c) = u32 (a * b + c).
Proof.
  intros a b c; unfold u32, two32.
  rewrite <- (N.add_mod_idemp_l (a mod _ * b)), N.mul_mod_idemp_l by discriminate.
  rewrite N.add_mod_idemp_l by discriminate; reflexivity.
Qed.
Lemma u32_small : forall x, x < two32 -> u32 x = x.
Proof. intros x H; apply N.mod_small; exact H. Qed.

Lemma substring_S : forall p k s c t, sdrop p s = String c t ->
  substring p (S k) s = String c (substring (S p) k s).
Proof.
  intros p k s c t H; rewrite substring_sdrop, H; cbn [substring]; f_equal.
  rewrite (substring_sdrop (S p)).
  replace (S p) with (p + 1)%nat by lia; rewrite sdrop_add, H; cbn [sdrop].
  reflexivity.
Qed.

Lemma strToUint_loop_spec : forall n s p acc,
  (p + n <= slen s)%nat ->
  strToUint_loop s p n (u32 acc) =
  Ok (match decimal (substring p n s) with
      | Some v => Some (u32 (acc * 10 ^ N.of_nat n + v))
      | None => None
      end).
Proof.
  induction n as [|n IH]; intros s p acc H.
  - cbn [strToUint_loop]. rewrite substring_sdrop.
    replace (substring 0 0 (sdrop p s)) with "" by (destruct (sdrop p s); reflexivity).
    cbn [decimal]. do 3 f_equal; cbn; lia.
  - cbn [strToUint_loop].
    destruct (sdrop p s) as [|c t] eqn:E.
    { pose proof (sdrop_len p s) as L; rewrite E in L; slia. }
    rewrite (sget_sdrop_cons _ _ _ _ E); cbn [bind].
    rewrite (substring_S _ _ _ _ _ E); cbn [decimal].
    rewrite digit_of_spec; destruct (is_digit c); [|reflexivity].
    rewrite u32_add_mul, IH by lia.
    destruct (decimal (substring (S p) n s)) as [v|] eqn:D; [|reflexivity].
    do 2 f_equal.
    replace (String.length (substring (S p) n s)) with n.
    2:{ change (n = slen (substring (S p) n s)); rewrite substring_len; lia. }
    rewrite Nat2N.inj_succ, N.pow_succ_r'; f_equal; lia.
Qed.

Lemma strToUint_spec : forall s p n,
  strToUint s p n =
  Ok (if Nat.eqb n 0 || Nat.ltb (slen s) (p + n) then None else
      match decimal (substring p n s) with
      | Some v => Some (v mod 2 ^ 32)
      | None => None
      end).
Proof.
  intros s p n; unfold strToUint.
  destruct (Nat.eqb_spec n 0) as [->|Hn]; [rewrite orb_true_r; reflexivity|].
  rewrite orb_false_r; cbn [orb].
  destruct (Nat.ltb_spec (slen s) (p + n)) as [H|H]; [rewrite orb_true_r; reflexivity|].
  rewrite orb_false_r.
  destruct s as [|c s]; [slia|]; cbn [sempty].
  change 0 with (u32 0); rewrite strToUint_loop_spec by lia.
  destruct (decimal _); [|reflexivity]. rewrite N.mul_0_l, N.add_0_l; reflexivity.
Qed.

Lemma strToUint_exact : forall s p n v, (n <= 9)%nat ->
  strToUint s p n = Ok (Some v) ->
  decimal (substring p n s) = Some v /\ v < 10 ^ N.of_nat n /\ (0 < n)%nat /\ (p + n <= slen s)%nat.
Proof.
  intros s p n v Hn H; rewrite strToUint_spec in H.
  destruct (Nat.eqb_spec n 0) as [->|H0]; [discriminate|]; cbn [orb] in H.
  destruct (Nat.ltb_spec (slen s) (p + n)) as [H1|H1]; [discriminate|].
  destruct (decimal _) as [w|] eqn:E; [|discriminate]; inv H.
  pose proof (decimal_bound _ _ E) as B; rewrite substring_len in B.
  replace (Nat.min n (slen s - p)) with n in B by lia.
  assert (10 ^ N.of_nat n <= 10 ^ 9) by (apply N.pow_le_mono_r; lia).
  rewrite N.mod_small by lia. repeat split; auto; lia.
Qed.

Lemma strToUint_ok : forall s p n, exists o, strToUint s p n = Ok o.
Proof. intros; rewrite strToUint_spec; eauto. Qed.

Lemma ok_strToUint : forall s p n, ok (strToUint s p n) (fun _ => True).
Proof. intros; rewrite strToUint_spec; exact I. Qed.
#[export] Hint Resolve ok_strToUint : okdb.

Lemma ok_fractionStrToUint : forall s p n, ok (fractionStrToUint s p n) (fun _ => True).
Proof. intros; unfold fractionStrToUint; cbv zeta; ok_auto. Qed.
#[export] Hint Resolve ok_fractionStrToUint : okdb.

Lemma ok_stoi : forall s, s <> "" -> all_digits s = true -> (slen s <= 9)%nat ->
  ok (stoi s) (fun v => decimal s = Some v).
Proof.
  intros s Hs Hd Hl; unfold stoi.
  destruct s as [|c s]; [congruence|]; cbn [sempty orb]; rewrite Hd; cbn [negb].
  destruct (proj2 (decimal_all_digits _) Hd) as [v Hv].
  rewrite (dec_value_decimal _ 0 v Hv), N.mul_0_l, N.add_0_l.
  pose proof (decimal_bound _ _ Hv) as B.
  assert (10 ^ N.of_nat (slen (String c s)) <= 10 ^ 9) by (apply N.pow_le_mono_r; lia).
  replace (v <? 2147483648) with true; [exact Hv|].
  symmetry; apply N.ltb_lt; lia.
Qed.

Lemma strToUint_iff : forall s p n v, (n <= 9)%nat ->
  (strToUint s p n = Ok (Some v) <->
   (0 < n)%nat /\ (p + n <= slen s)%nat /\ decimal (substring p n s) = Some v).
Proof.
  intros s p n v Hn; split.
  - intros H; destruct (strToUint_exact _ _ _ _ Hn H) as (A & B & C & D); auto.
  - intros (A & B & D); rewrite strToUint_spec.
    destruct (Nat.eqb_spec n 0) as [->|H0]; [lia|].
    destruct (Nat.ltb_spec (slen s) (p + n)) as [H1|H1]; [lia|]; cbn [orb].
    rewrite D; do 2 f_equal; apply N.mod_small.
    pose proof (decimal_bound _ _ D) as E; rewrite substring_len in E.
    replace (Nat.min n (slen s - p)) with n in E by lia.
    assert (10 ^ N.of_nat n <= 10 ^ 9) by (apply N.pow_le_mono_r; lia); lia.
Qed.

Lemma strToUint_wraps : exists s v,
  decimal s = Some v /\ slen s = 10%nat /\ strToUint s 0 10 = Ok (Some (v - 2 ^ 32)).
Proof. exists "5000000000", 5000000000; repeat split; reflexivity. Qed.
