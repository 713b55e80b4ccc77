(** Distance::miles(): the distance rounded to sixteenths of a mile and then down to a reportable value. *)
From Coq Require Import ZArith NArith QArith Qabs Reals Qreals Psatz Lra Bool Lia List.
From Verif Require Import Prim Float Values SpecReal SpecUnits.
From Flocq Require Import Core.Zaux Core.Raux Core.Defs Core.Float_prop Core.Generic_fmt Core.FLT Core.FLX
  IEEE754.BinarySingleNaN.
From Verif Require Import Pf_Round Pf_Convert Pf_Units.
Local Open Scope R_scope.

Lemma round_half_any : forall x, is_finite_SF x = true ->
  exists k, round_half_away x = Some k /\ Rabs (IZR k - SF2R radix2 x) <= / 2.
Proof.
  intros x F. destruct x as [s|s| |s m e]; try discriminate.
  - exists 0%Z. split; [reflexivity|]. cbn [SF2R]. replace (IZR 0 - 0) with 0 by lra. rewrite Rabs_R0. lra.
  - cbn [SF2R round_half_away].
    assert (H : exists a, (if (0 <=? e)%Z then Zpos m * 2 ^ e else (2 * Zpos m + 2 ^ (- e)) / (2 * 2 ^ (- e)))%Z = a
      /\ Rabs (IZR a - IZR (Zpos m) * bpow radix2 e) <= / 2).
    { eexists. split; [reflexivity|]. destruct (Z.leb_spec 0 e) as [L|L].
      - rewrite mult_IZR. rewrite <- (IZR_Zpower radix2 e L). change (radix_val radix2) with 2%Z.
        match goal with |- Rabs (?a - ?b) <= _ => replace (a - b) with 0 by lra end. rewrite Rabs_R0. lra.
      - assert (Pd : (0 < 2 ^ (- e))%Z) by (apply Z.pow_pos_nonneg; lia).
        set (r := IZR (Zpos m) * bpow radix2 e).
        assert (Er : r * IZR (2 ^ (- e)) = IZR (Zpos m)).
        { change (IZR (2 ^ (- e))) with (IZR (Zpower radix2 (- e))). rewrite IZR_Zpower by lia.
          unfold r. rewrite Rmult_assoc, <- bpow_plus. replace (e + - e)%Z with 0%Z by lia. cbn [bpow]. lra. }
        set (d := (2 ^ (- e))%Z) in *.
        assert (D0 := Z.div_mod (2 * Zpos m + d) (2 * d) ltac:(lia)).
        assert (D1 := Z.mod_pos_bound (2 * Zpos m + d) (2 * d) ltac:(lia)).
        set (a := ((2 * Zpos m + d) / (2 * d))%Z) in *.
        assert (U1 : (2 * d * a <= 2 * Zpos m + d)%Z) by lia.
        assert (U2 : (2 * Zpos m + d < 2 * d * a + 2 * d)%Z) by lia.
        apply IZR_le in U1. apply IZR_lt in U2. repeat rewrite ?plus_IZR, ?mult_IZR in U1.
        repeat rewrite ?plus_IZR, ?mult_IZR in U2.
        rewrite <- Er in U1, U2. apply IZR_lt in Pd. clearbody r a d.
        unfold Rabs. destruct (Rcase_abs (IZR a - r)); nra. }
    destruct H as (a & Ea & Ha). rewrite Ea. exists (cond_Zopp s a). split; [reflexivity|].
    unfold F2R. cbn [Fnum Fexp]. destruct s; cbn [cond_Zopp]; [|exact Ha].
    change (cond_Zopp true (Zpos m)) with (- Zpos m)%Z. rewrite (opp_IZR a), (opp_IZR (Zpos m)).
    replace (- IZR a - - IZR (Zpos m) * bpow radix2 e) with (- (IZR a - IZR (Zpos m) * bpow radix2 e)) by lra.
    rewrite Rabs_Ropp. exact Ha.
Qed.
Lemma round_half : forall x r, F32 x r -> 0 <= r ->
  exists k, round_half_away x = Some k /\ Rabs (IZR k - r) <= / 2 /\ (0 <= k)%Z.
Proof.
  intros x r (V & F & E) P. destruct (round_half_any x F) as (k & K & H). rewrite E in H.
  exists k. split; [exact K|]. split; [exact H|].
  assert (-1 < k)%Z; [|lia]. apply lt_IZR. unfold Rabs in H. destruct (Rcase_abs (IZR k - r)); lra.
Qed.

(** the reportable values, looked up below 48 and computed above *)
Definition sx (p : N * MilesFraction) : N := (16 * fst p + sixteenths_of (snd p))%N.
Definition reportableb (r : N) : bool :=
  ((r <=? 6) || ((8 <=? r) && (r <? 32) && (r mod 2 =? 0)) || ((32 <=? r) && (r <? 48) && (r mod 4 =? 0))
   || ((48 <=? r) && (r <=? 240) && (r mod 16 =? 0)) || ((240 <=? r) && (r mod 80 =? 0)))%N.
Lemma reportable_b : forall r, reportable r <-> reportableb r = true.
Proof.
  intros r. unfold reportable, reportableb.
  rewrite !Bool.orb_true_iff, !Bool.andb_true_iff, !N.leb_le, !N.ltb_lt, !N.eqb_eq.
  rewrite !N.mod_divide by discriminate. tauto.
Qed.
Lemma low_table : forallb (fun k : nat =>
  let r := sx (Distance_milesFromSixteenths (N.of_nat k)) in
  reportableb r && N.leb r (N.of_nat k)
  && forallb (fun j : nat => negb (reportableb (N.of_nat j)) || N.leb (N.of_nat j) r) (seq 0 (S k)))
  (seq 0 48) = true.
Proof. vm_compute. reflexivity. Qed.
Lemma sixteenths_spec : forall k, let r := sx (Distance_milesFromSixteenths k) in
  reportable r /\ (r <= k)%N /\ forall r', reportable r' -> (r' <= k)%N -> (r' <= r)%N.
Proof.
  intros k. destruct (N.lt_ge_cases k 48) as [L|L].
  - pose proof low_table as T. rewrite forallb_forall in T.
    specialize (T (N.to_nat k)). rewrite N2Nat.id in T. cbv zeta in T.
    assert (I : In (N.to_nat k) (seq 0 48)) by (apply in_seq; lia). apply T in I.
    apply andb_true_iff in I. destruct I as [I1 I3]. apply andb_true_iff in I1. destruct I1 as [I1 I2].
    split; [apply reportable_b; exact I1|]. split; [apply N.leb_le; exact I2|].
    intros r' R' L'. rewrite forallb_forall in I3. specialize (I3 (N.to_nat r')). rewrite N2Nat.id in I3.
    assert (J : In (N.to_nat r') (seq 0 (S (N.to_nat k)))) by (apply in_seq; lia). apply I3 in J.
    apply reportable_b in R'. rewrite R' in J. apply N.leb_le. exact J.
  - cbv zeta. unfold Distance_milesFromSixteenths. rewrite N.min_r by exact L.
    change (nth_error miles_table (N.to_nat 48)) with (@None (N * MilesFraction)).
    cbv beta iota zeta. unfold sx. cbn [fst snd sixteenths_of]. rewrite N.add_0_r.
    assert (D := N.div_mod k 16 ltac:(discriminate)). assert (B := N.mod_bound_pos k 16 ltac:(lia) ltac:(lia)).
    set (i := (k / 16)%N) in *.
    destruct (N.ltb_spec 15 i) as [G|G].
    + assert (D5 := N.div_mod i 5 ltac:(discriminate)). assert (B5 := N.mod_bound_pos i 5 ltac:(lia) ltac:(lia)).
      set (j := (i / 5)%N) in *.
      split; [|split; [lia|]].
      * unfold reportable. right. right. right. right. split; [lia|]. exists j. lia.
      * intros r' R' L'. unfold reportable in R'.
        destruct R' as [R'|[[R' _]|[[R' _]|[[R' _]|[R' [c C]]]]]]; lia.
    + split; [|split; [lia|]].
      * unfold reportable. right. right. right. left. split; [lia|]. exists i. lia.
      * intros r' R' L'. unfold reportable in R'.
        destruct R' as [R'|[[R' _]|[[R' _]|[[R' [c C]]|[R' [c C]]]]]]; lia.
Qed.

Lemma target : forall n u, exists c, / 100000 <= c <= / 1000
  /\ Q2R (converted (stored n u) (metres_in u) (metres_in STATUTE_MILES)) = IZR (Z.of_N n) * c.
Proof.
  intros n u. exists (Q2R (match u with
    | METERS => 1000 # 1609344 | STATUTE_MILES => 1 # 10000 | FEET => 3048 # 16093440 end)).
  split.
  - destruct u; unfold Q2R; cbn [Qnum Qden]; lra.
  - rewrite <- Q2R_parts, <- Q2R_mult. apply Qeq_eqR. unfold converted, stored, parts, metres_in, Qeq.
    destruct u; cbn; lia.
Qed.
Lemma miles_presents : forall md n u, (n < 4294967296)%N -> exists i f,
  Distance_miles (mkDist md (Some n) u) = Ok (Some (i, f))
  /\ presents (16 * i + sixteenths_of f) (sixteenths n u).
Proof.
  intros md n u L. destruct (distance_R md n u STATUTE_MILES L) as (x & r & X & R & D).
  destruct (target n u) as (c & C & Ec). rewrite Ec in D.
  set (t := IZR (Z.of_N n) * c) in *.
  assert (Lt : t = 0 \/ / 100000 <= t <= 4294968).
  { unfold t. destruct n as [|p]; [left; unfold Z.of_N; lra|right].
    assert (1 <= IZR (Z.of_N (N.pos p)) <= 4294967296) by (split; apply IZR_le; lia).
    set (a := IZR (Z.of_N (N.pos p))) in *.
    assert (1 * / 100000 <= a * c) by (apply Rmult_le_compat; lra).
    assert (a * c <= 4294967296 * / 1000) by (apply Rmult_le_compat; lra). lra. }
  assert (Pt : 0 <= t <= 4294968) by lra.
  assert (Dr := D). unfold rel in Dr. rewrite (Rabs_pos_eq t) in Dr by lra.
  assert (Br : t - 11 / 1000000 * t <= r <= t + 11 / 1000000 * t).
  { unfold Rabs in Dr. destruct (Rcase_abs (r - t)); lra. }
  assert (S16 : F32 (f32_of_N 16) 16) by (repeat split; vm_compute; lra).
  assert (M : mid 60 (r * 16)).
  { destruct Lt as [T0|T]; [left; rewrite T0 in Br; lra|right].
    rewrite Rabs_pos_eq by lra. change (- (60))%Z with (-60)%Z.
    split.
    - apply Rle_trans with (bpow radix2 (-20)); [apply bple; lia|].
      assert (bpow radix2 (-20) = / 1048576) by reflexivity. lra.
    - apply Rle_trans with (bpow radix2 40); [|apply bple; lia].
      assert (bpow radix2 40 = 1099511627776) by reflexivity. lra. }
  assert (F16 : F32 (f32_mul x (f32_of_N 16)) (R32 (r * 16))).
  { apply (mul_ok 24 128 p24 e24 _ _ _ _ R S16). apply (mid_lt32 60); [lia|]. apply R32_mid; [lia|exact M]. }
  assert (E16 : rel e32 (R32 (r * 16)) (r * 16)) by (apply R32_rel; apply (mid_up 60); [lia|exact M]).
  unfold rel in E16. rewrite (Rabs_pos_eq (r * 16)) in E16 by lra. rewrite e32_val in E16.
  set (y := R32 (r * 16)) in *.
  assert (By : 16 * t - 15 / 1000000 * (16 * t) <= y <= 16 * t + 15 / 1000000 * (16 * t)).
  { unfold Rabs in E16. destruct (Rcase_abs (y - r * 16)); lra. }
  destruct (round_half _ _ F16) as (k & K & Ek & Pk); [lra|].
  unfold Distance_miles. rewrite X. unfold round_to_uint. rewrite K.
  assert (Ek' : y - / 2 <= IZR k <= y + / 2) by (unfold Rabs in Ek; destruct (Rcase_abs (IZR k - y)); lra).
  assert (Hk : (k <= 4294967295)%Z) by (apply le_IZR; lra).
  destruct (Z.leb_spec 0 k) as [_|]; [|lia]. destruct (Z.leb_spec k 4294967295) as [_|]; [|lia].
  cbn [andb]. cbn [bind].
  destruct (Distance_milesFromSixteenths (Z.to_N k)) as [i f] eqn:Eif.
  exists i, f. split; [reflexivity|].
  pose proof (sixteenths_spec (Z.to_N k)) as Sx. cbv zeta in Sx. rewrite Eif in Sx. unfold sx in Sx. cbn [fst snd] in Sx.
  destruct Sx as (S1 & S2 & S3). split; [exact S1|]. exists (Z.to_N k). split; [|split; assumption].
  apply Rle_Qle. rewrite Q2R_abs, Q2R_minus, Q2R_plus, Q2R_mult, Q2R_parts, Z2N.id by exact Pk.
  assert (Es : Q2R (sixteenths n u) = 16 * t).
  { unfold sixteenths. rewrite Q2R_mult, Ec. replace (Q2R 16) with 16 by (unfold Q2R; cbn; lra). reflexivity. }
  rewrite Es. replace (Q2R (1 # 2)) with (/ 2) by (unfold Q2R; cbn; lra).
  replace (Q2R (1 # 50000)) with (/ 50000) by (unfold Q2R; cbn; lra).
  unfold Rabs. destruct (Rcase_abs (IZR k - 16 * t)); lra.
Qed.

(** Reportable values are returned exactly. *)
Lemma miles_exact : forall md r, reportable r -> (r <= 20000)%N -> exists i f,
  Distance_miles (mkDist md (Some (625 * r)%N) STATUTE_MILES) = Ok (Some (i, f))
  /\ (16 * i + sixteenths_of f = r)%N.
Proof.
  intros md r R L. destruct (miles_presents md (625 * r)%N STATUTE_MILES) as (i & f & E & P); [lia|].
  exists i, f. split; [exact E|]. destruct P as (P1 & k & K & Lk & Mx).
  assert (k = r).
  { assert (Q1 : (sixteenths (625 * r) STATUTE_MILES == parts r 1)%Q).
    { unfold sixteenths, converted, stored, metres_in.
      assert (V : (16 * parts (625 * r) 10000 == parts r 1)%Q).
      { unfold parts, Qeq. cbn [Qmult Qnum Qden]. rewrite N2Z.inj_mul. cbn -[Z.mul Z.of_N]. lia. }
      rewrite <- V. field. }
    rewrite Q1 in K. apply Qle_Rle in K. rewrite Q2R_abs, Q2R_minus, Q2R_plus, Q2R_mult, !Q2R_parts in K.
    replace (Q2R (1 # 2)) with (/ 2) in K by (unfold Q2R; cbn; lra).
    replace (Q2R (1 # 50000)) with (/ 50000) in K by (unfold Q2R; cbn; lra).
    assert (IZR (Z.of_N r) <= 20000) by (apply IZR_le; lia).
    assert (Z.abs (Z.of_N k - Z.of_N r) < 1)%Z; [|lia].
    apply lt_IZR. rewrite abs_IZR, minus_IZR. lra. }
  subst k. specialize (Mx r R (N.le_refl r)). lia.
Qed.
Lemma miles_none : forall d, dist d = None -> Distance_miles d = Ok None.
Proof. intros d E. unfold Distance_miles, Distance_toUnit, Distance_distance. rewrite E. reflexivity. Qed.
