(** The values the weather summary stores fit in an int. *)
From Coq Require Import ZArith NArith QArith Qabs Qround Qreals Reals Lia Lra List.
Import ListNotations.
From Flocq Require Import Core.
From Verif Require Import Prim Float Values SpecNumeral SpecReal SpecUnits SpecSumNumbers Groups3 Summary.
From Verif Require Import Pf_Numeral Pf_Values1 Pf_Round Pf_Convert Pf_Units Pf_Index Pf_Parsed Pf_Bounded Pf_Whole Pf_SumTable.

Lemma trunc_bound : forall x v, flt_value x = Some v -> (Qabs v <= 2000000000 # 1)%Q -> exists z, trunc_to_int x = Ok z.
Proof.
  intros x v E L. unfold trunc_to_int. assert (H : exists z, trunc_flt x = Some z /\ (Z.abs z <= 2000000000)%Z).
  { destruct x as [s|s| |s m e]; try discriminate E; [exists 0%Z; split; [reflexivity|lia]|].
    cbn [trunc_flt flt_value] in *. eexists; split; [reflexivity|]. injection E as <-.
    destruct (0 <=? e)%Z eqn:G.
    - apply Z.leb_le in G. pose proof (Z.pow_nonneg 2 e ltac:(lia)). unfold Qle, Qabs, inject_Z in L. cbn [Qnum Qden] in L.
      destruct s; cbn [cond_Zopp]; lia.
    - apply Z.leb_gt in G. pose proof (Z.pow_pos_nonneg 2 (-e) ltac:(lia) ltac:(lia)) as P. unfold Qle, Qabs in L. cbn [Qnum Qden] in L.
      rewrite Z2Pos.id in L by exact P.
      assert (Zpos m <= 2000000000 * 2 ^ (-e))%Z by (destruct s; cbn [Z.abs] in L; lia).
      assert (0 <= Zpos m / 2 ^ (-e) <= 2000000000)%Z.
      { split; [apply Z.div_pos; lia|]. apply Z.div_le_upper_bound; lia. }
      destruct s; cbn [cond_Zopp]; lia. }
  destruct H as (z & -> & B). exists z. destruct (Z.leb_spec (-2147483648) z); [|lia]. destruct (Z.leb_spec z 2147483647); [reflexivity|lia].
Qed.
Lemma trunc_F32 : forall x r, F32 x r -> lebp 30 r -> exists z, trunc_to_int x = Ok z.
Proof.
  intros x r F L. destruct (F32_value _ _ F) as (q & E & R). apply (trunc_bound x q E).
  apply Rle_Qle. rewrite Q2R_abs, Q2R_int. unfold lebp in L. change (bpow radix2 30) with 1073741824%R in L.
  try rewrite R in *. try rewrite <- R in *. lra.
Qed.

(** Temperatures *)
Lemma precise_fits : forall t z u, tempValue t = Some z -> precise t = true -> (Z.abs z <= 2147483648)%Z ->
  exists x k, Temperature_toUnit t u = Some x /\ trunc_to_int x = Ok k.
Proof.
  intros t z u E P L. unfold Temperature_toUnit, Temperature_temperature. rewrite E, P.
  assert (Lz : lebp 31 (IZR z)).
  { unfold lebp. rewrite <- abs_IZR. change (bpow radix2 31) with (IZR 2147483648). apply IZR_le. exact L. }
  assert (A : F32 (f32_of_Z z) (R32 (IZR z))) by (apply of_Z_ok; lia).
  assert (T : lebp (-3) tenth).
  { unfold tenth. apply R32_b; [lia|]. apply R64_b; [lia|]. unfold lebp. rewrite Rabs_pos_eq by lra. change (bpow radix2 (-3)) with (/ 8)%R. lra. }
  assert (M : lebp 28 (R32 (R32 (IZR z) * tenth))).
  { apply R32_b; [lia|]. change 28%Z with (31 + -3)%Z. apply lebp_mul; [apply R32_b; [lia|exact Lz]|exact T]. }
  assert (B28 : F32 (f32_mul (f32_of_Z z) (flit 1 10)) (R32 (R32 (IZR z) * tenth))).
  { apply (mul_ok 24 128 p24 e24); [exact A|exact tenth_F|]. eapply Rle_lt_trans; [exact M|apply bp; lia]. }
  destruct u.
  - destruct (trunc_F32 _ _ B28) as (k & K); [apply (lebp_up 28); [lia|exact M]|]. exists (f32_mul (f32_of_Z z) (flit 1 10)), k. auto.
  - assert (X : B 30 (f64_add (f64_mul (to64 (f32_mul (f32_of_Z z) (flit 1 10))) (dlit 18 10)) (f64_of_Z 32))).
    { apply (B_add' 29 5); [lia|lia|lia| |apply Bcheck_B; vm_compute; reflexivity].
      apply (B_mul' 28 1); [lia|lia|apply (B_32 _ _ _ B28 M)|apply Bcheck_B; vm_compute; reflexivity]. }
    destruct X as (r & R & Mr). assert (M32 : lebp 30 (R32 r)) by (apply R32_b; [lia|exact Mr]).
    destruct (trunc_F32 _ _ (to32_ok _ _ R ltac:(eapply Rle_lt_trans; [exact M32|apply bp; lia])) M32) as (k & K).
    eexists. exists k. split; [reflexivity|exact K].
Qed.

(** *** Whole parts *)
Lemma trunc_whole : forall x z, trunc_to_int x = Ok z -> exists v, flt_value x = Some v /\ z = whole_part v.
Proof.
  intros x z H. unfold trunc_to_int in H. destruct (trunc_flt x) as [k|] eqn:E; [|discriminate].
  destruct (_ && _)%bool; [|discriminate]. injection H as <-.
  destruct x as [s|s| |s m e]; try discriminate E; cbn [trunc_flt flt_value] in *; injection E as <-.
  - eexists; split; [reflexivity|]. reflexivity.
  - eexists; split; [reflexivity|]. destruct (0 <=? e)%Z eqn:G; unfold whole_part, inject_Z; cbn [Qnum Qden].
    + rewrite Z.quot_1_r. destruct s; unfold cond_Zopp; [|reflexivity]. change (Z.neg m) with (- Z.pos m)%Z. rewrite Z.mul_opp_l. reflexivity.
    + apply Z.leb_gt in G. pose proof (Z.pow_pos_nonneg 2 (-e) ltac:(lia) ltac:(lia)) as P. rewrite Z2Pos.id by exact P.
      rewrite <- Z.quot_div_nonneg by lia. destruct s; cbn [cond_Zopp]; [|reflexivity].
      change (Z.neg m) with (- Z.pos m)%Z. rewrite Z.quot_opp_l by lia. reflexivity.
Qed.
Lemma whole_eq : forall a b, (a == b)%Q -> whole_part a = whole_part b.
Proof.
  intros [a p] [b q] E. unfold Qeq in E. unfold whole_part. cbn [Qnum Qden] in *.
  rewrite <- (Z.quot_mul_cancel_r a (Zpos p) (Zpos q)), <- (Z.quot_mul_cancel_r b (Zpos q) (Zpos p)) by discriminate.
  rewrite E, (Z.mul_comm (Zpos p) (Zpos q)). reflexivity.
Qed.
Lemma about_of : forall eps x q, close_to eps x q -> (0 <= eps <= 1)%Q -> (Qabs q <= 1000000000 # 1)%Q ->
  exists z, trunc_to_int x = Ok z /\ about eps q z.
Proof.
  intros eps x q (v & V & C) [E0 E1] Q.
  assert (W : (Qabs v <= 2000000000 # 1)%Q).
  { assert (Qabs v <= Qabs (v - q) + Qabs q)%Q.
    { setoid_replace v with ((v - q) + q)%Q at 1 by ring. apply Qabs_triangle. }
    eapply Qle_trans; [exact H|]. eapply Qle_trans; [apply Qplus_le_compat; [exact C|exact Q]|].
    eapply Qle_trans; [apply Qplus_le_compat; [apply Qmult_le_compat_r; [exact E1|apply Qabs_nonneg]|apply Qle_refl]|].
    rewrite Qmult_1_l. eapply Qle_trans; [apply Qplus_le_compat; [exact Q|apply Qle_refl]|]. discriminate. }
  destruct (trunc_bound x v V W) as (z & Z). exists z. split; [exact Z|]. exists v. split; [exact C|].
  destruct (trunc_whole x z Z) as (v' & V' & E). rewrite V in V'. injection V' as <-. exact E.
Qed.
Lemma integer_shown : forall n, (n <= 16777216)%N -> trunc_to_int (f32_of_N n) = Ok (Z.of_N n).
Proof.
  intros n L. destruct (of_N_exact n L) as (v & V & E).
  destruct (trunc_bound _ v V) as (z & Z); [rewrite E; unfold parts, Qle, Qabs; cbn [Qnum Qden]; lia|].
  rewrite Z. destruct (trunc_whole _ z Z) as (v' & V' & ->). rewrite V in V'. injection V' as <-. rewrite (whole_eq _ _ E).
  unfold whole_part, parts. cbn [Qnum Qden]. rewrite Z.quot_1_r. reflexivity.
Qed.

(** Distances *)
Lemma dist_about : forall d imperial n, dist d = Some n -> dist_small d ->
  exists x z, Distance_toUnit d (sum_visibilityUnit imperial) = Some x /\ trunc_to_int x = Ok z
    /\ about (11 # 1000000) (converted (stored n (distUnit d)) (metres_in (distUnit d)) (metres_in (sum_visibilityUnit imperial))) z.
Proof.
  intros [m o u0] imperial n E [N|(n' & E' & L & U)]; cbn [dist distUnit] in *; [congruence|].
  rewrite E in E'. injection E' as <-. subst o.
  destruct (distance_accurate m n u0 (sum_visibilityUnit imperial) L) as (x & X & C).
  destruct (about_of _ _ _ C) as (z & Z & A); [split; discriminate| |exists x, z; auto].
  destruct U as [-> |U]; destruct imperial; try destruct u0; unfold converted, stored, parts, metres_in, sum_visibilityUnit, Qdiv, Qinv, Qmult, Qabs, Qle; cbn [Qnum Qden]; lia.
Qed.

Local Open Scope R_scope.
(** Pressures *)
Definition shown_pressure (imperial : bool) (p : Pressure) : option flt :=
  match Pressure_toUnit p (sum_pressureUnit imperial) with
  | Some x => Some (if PressureUnit_beq (sum_pressureUnit imperial) INCHES_HG then f32_mul x (f32_of_Z 100) else x)
  | None => None
  end.
Lemma hundredth_F : exists h, F32 (flit 1 100) h /\ mid 40 h /\ rel (/ 8000000) h (1 / 100).
Proof.
  destruct (dlit_ok 1 100) as (A & B & C & P); [lia|lia|]. exists (R32 (R64 (1 / 100))). unfold flit.
  split; [apply to32_ok; [exact A|apply (mid_lt32 40); [lia|apply R32_mid; [lia|exact C]]]|].
  split; [apply R32_mid; [lia|exact C]|].
  assert (T64 : rel e64 (R64 (1 / 100)) (1 / 100)) by (apply R64_rel; apply (mid_up 40); [lia|exact B]).
  assert (T32 : rel e32 (R32 (R64 (1 / 100))) (R64 (1 / 100))) by (apply R32_rel; apply (mid_up 40); [lia|exact C]).
  eapply rel_up; [|eapply rel_trans; [|exact T32|exact T64]]; [rewrite e32_val, e64_val; lra|apply Rlt_le, e32_pos].
Qed.
Lemma pressure_base : forall n, (n < 10000)%N -> exists r,
  F32 (f32_mul (f32_of_N n) (flit 1 100)) r /\ mid 30 r /\ rel (/ 2000000) r (IZR (Z.of_N n) / 100).
Proof.
  intros n L. destruct (of_N_F n) as (a & A & _ & Ra); [lia|]. destruct hundredth_F as (h & H & _ & Rh).
  assert (Hb : / 128 <= h <= 1 / 10).
  { unfold rel in Rh. rewrite (Rabs_pos_eq (1 / 100)) in Rh by lra. unfold Rabs in Rh. destruct (Rcase_abs _) in Rh; lra. }
  assert (M14 : mid 14 (IZR (Z.of_N n))).
  { destruct n as [|p]; [left; reflexivity|right]. rewrite Rabs_pos_eq by (apply IZR_le; lia).
    change (bpow radix2 14) with 16384. change (bpow radix2 (- (14))) with (/ 16384).
    split; [apply Rle_trans with 1; [lra|apply IZR_le; lia]|apply IZR_le; lia]. }
  assert (Ma : mid 15 a).
  { destruct M14 as [Z|[Z1 Z2]].
    - left. rewrite Z in Ra. unfold rel in Ra. rewrite Rabs_R0, Rmult_0_r in Ra. apply abs_zero in Ra. lra.
    - right. pose proof (rel_abs _ _ _ Ra) as U. pose proof (rel_abs_low _ _ _ Ra) as D. rewrite e32_val in *.
      change (bpow radix2 14) with 16384 in *. change (bpow radix2 (- (14))) with (/ 16384) in *.
      change (bpow radix2 15) with 32768. change (bpow radix2 (- (15))) with (/ 32768). lra. }
  assert (Mh : mid 7 h).
  { right. rewrite Rabs_pos_eq by lra. change (bpow radix2 7) with 128. change (bpow radix2 (- (7))) with (/ 128). lra. }
  assert (Mp : mid 22 (a * h)) by (change 22%Z with (15 + 7)%Z; apply mid_mul; assumption).
  assert (M : mid 22 (R32 (a * h))) by (apply R32_mid; [lia|exact Mp]).
  exists (R32 (a * h)). split; [|split; [apply (mid_up 22); [lia|exact M]|]].
  - apply (mul_ok 24 128 p24 e24); [exact A|exact H|]. apply (mid_lt32 22); [lia|exact M].
  - assert (R1 : rel e32 (R32 (a * h)) (a * h)) by (apply R32_rel; apply (mid_up 22); [lia|exact Mp]).
    assert (R2 : rel (/ 8000000) (a * h) (a * (1 / 100))) by (apply rel_mul; exact Rh).
    assert (R3 : rel e32 (a * (1 / 100)) (IZR (Z.of_N n) / 100)).
    { replace (a * (1 / 100)) with (/ 100 * a) by lra. replace (IZR (Z.of_N n) / 100) with (/ 100 * IZR (Z.of_N n)) by lra. apply rel_mul. exact Ra. }
    eapply rel_up; [|eapply rel_trans; [|exact R1|eapply rel_trans; [|exact R2|exact R3]]]; rewrite ?e32_val; lra.
Qed.
(** the unit of the pressure shown, in pascals: a hectopascal or a hundredth of an inch *)
Lemma pressure_about : forall v r n d u0 imperial, F32 v r -> mid 30 r -> rel (/ 2000000) r (Q2R (parts n d)) -> (n < 10000)%N ->
  exists x z, shown_pressure imperial (mkPressure (Some v) u0) = Some x /\ trunc_to_int x = Ok z
    /\ about (1 # 40000) (converted (parts n d) (pascals_in u0) (shown_pascals imperial)) z.
Proof.
  intros v r n d u0 imperial F M R L. unfold shown_pressure.
  destruct (press_conv_ok u0 (sum_pressureUnit imperial)) as (E & f & F1 & F2 & _). rewrite E.
  specialize (F1 v r F ltac:(apply (mid_up 30); [lia|exact M])). specialize (F2 r ltac:(apply (mid_up 30); [lia|exact M])).
  set (c := (pascals_in u0 / pascals_in (sum_pressureUnit imperial))%Q) in *.
  assert (Rq : rel (/ 45000) (f r) (Q2R (parts n d * c))).
  { rewrite Q2R_mult. eapply rel_up; [|eapply rel_trans; [|exact F2|]].
    3:{ replace (r * Q2R c) with (Q2R c * r) by lra. replace (Q2R (parts n d) * Q2R c) with (Q2R c * Q2R (parts n d)) by lra. apply rel_mul. exact R. }
    - replace (Q2R (1 # 50000)) with (/ 50000) by (unfold Q2R; cbn; lra). lra.
    - replace (Q2R (1 # 50000)) with (/ 50000) by (unfold Q2R; cbn; lra). lra. }
  assert (Mc : mid 10 (Q2R c)).
  { right. assert (X : (1 # 1000 <= Qabs c <= 1000 # 1)%Q) by (destruct u0, imperial; split; vm_compute; discriminate).
    destruct X as [X1 X2]. apply Qle_Rle in X1, X2. rewrite Q2R_abs in X1, X2.
    replace (Q2R (1 # 1000)) with (/ 1000) in X1 by (unfold Q2R; cbn; lra). rewrite Q2R_int in X2.
    change (bpow radix2 10) with 1024. change (bpow radix2 (- (10))) with (/ 1024). lra. }
  assert (Mf : mid 41 (f r)).
  { assert (Mr : mid 40 (r * Q2R c)) by (change 40%Z with (30 + 10)%Z; apply mid_mul; assumption).
    replace (Q2R (1 # 50000)) with (/ 50000) in F2 by (unfold Q2R; cbn; lra).
    destruct Mr as [Z|[Z1 Z2]].
    - left. rewrite Z in F2. unfold rel in F2. rewrite Rabs_R0, Rmult_0_r in F2. apply abs_zero in F2. lra.
    - right. pose proof (rel_abs _ _ _ F2) as U. pose proof (rel_abs_low _ _ _ F2) as D.
      change (bpow radix2 40) with 1099511627776 in *. change (bpow radix2 (- (40))) with (/ 1099511627776) in *.
      change (bpow radix2 41) with 2199023255552. change (bpow radix2 (- (41))) with (/ 2199023255552). lra. }
  assert (Qn : (Qabs (converted (parts n d) (pascals_in u0) (shown_pascals imperial)) <= 1000000000 # 1)%Q).
  { unfold converted, parts, Qdiv. setoid_replace (Qabs ((Z.of_N n # d) * pascals_in u0 * / shown_pascals imperial))%Q
      with (Qabs (Z.of_N n # d) * (Qabs (pascals_in u0) * Qabs (/ shown_pascals imperial)))%Q by (rewrite <- !Qabs_Qmult, Qmult_assoc; reflexivity).
    assert (Qabs (Z.of_N n # d) <= 10000 # 1)%Q by (unfold Qle, Qabs; cbn [Qnum Qden]; nia).
    assert (Qabs (pascals_in u0) * Qabs (/ shown_pascals imperial) <= 1000 # 1)%Q by (destruct u0, imperial; vm_compute; discriminate).
    eapply Qle_trans; [apply Qmult_le_compat_nonneg; split; [apply Qabs_nonneg|exact H|apply Qmult_le_0_compat; apply Qabs_nonneg|exact H0]|]. discriminate. }
  assert (Eps : Q2R (1 # 40000) = / 40000) by (unfold Q2R; cbn; lra).
  destruct imperial; cbn [sum_pressureUnit PressureUnit_beq] in *.
  - assert (F100 : F32 (f32_of_Z 100) 100).
    { assert (X : flt_value (f32_of_Z 100) = Some (13107200 # 131072)%Q) by (vm_compute; reflexivity).
      replace 100 with (Q2R (13107200 # 131072)) by (unfold Q2R; cbn; lra). apply isF_comp; [vm_compute; reflexivity|exact X]. }
    assert (M100 : mid 7 100) by (right; rewrite Rabs_pos_eq by lra; change (bpow radix2 7) with 128; change (bpow radix2 (- (7))) with (/ 128); lra).
    assert (Mx : mid 48 (f r * 100)) by (change 48%Z with (41 + 7)%Z; apply mid_mul; assumption).
    assert (My : mid 48 (R32 (f r * 100))) by (apply R32_mid; [lia|exact Mx]).
    assert (FX : F32 (f32_mul (press_conv u0 INCHES_HG v) (f32_of_Z 100)) (R32 (f r * 100))).
    { apply (mul_ok 24 128 p24 e24); [exact F1|exact F100|apply (mid_lt32 48); [lia|exact My]]. }
    assert (RX : rel (/ 40000) (R32 (f r * 100)) (Q2R (converted (parts n d) (pascals_in u0) (shown_pascals true)))).
    { assert (EQ : (converted (parts n d) (pascals_in u0) (shown_pascals true) == (100 # 1) * (parts n d * c))%Q).
      { unfold c, converted, shown_pascals. destruct u0; cbn [pascals_in sum_pressureUnit]; field. }
      rewrite (Qeq_eqR _ _ EQ), Q2R_mult, Q2R_int.
      eapply rel_up; [|eapply rel_trans; [|apply R32_rel; apply (mid_up 48); [lia|exact Mx]|replace (f r * 100) with (100 * f r) by lra; apply rel_mul; exact Rq]];
        rewrite e32_val; lra. }
    destruct (about_of (1 # 40000) (f32_mul (press_conv u0 INCHES_HG v) (f32_of_Z 100)) (converted (parts n d) (pascals_in u0) (shown_pascals true))) as (z & Z & A).
    + apply (close_R _ _ (R32 (f r * 100))); [exact FX|]. rewrite Eps. exact RX.
    + split; discriminate.
    + exact Qn.
    + eexists. exists z. split; [reflexivity|]. split; assumption.
  - destruct (about_of (1 # 40000) (press_conv u0 HECTOPASCAL v) (converted (parts n d) (pascals_in u0) (shown_pascals false))) as (z & Z & A).
    + apply close_converted. apply (close_R _ _ (f r)); [exact F1|]. eapply rel_up; [|exact Rq]. lra.
    + split; discriminate.
    + exact Qn.
    + eexists. exists z. split; [reflexivity|]. split; assumption.
Qed.

(** Heat index and wind chill *)
Definition temp_fits (t : Temperature) : Prop :=
  forall u x, Temperature_toUnit t u = Some x -> exists k, trunc_to_int x = Ok k.
Lemma ofFloat_fits : forall v t, Temperature_ofFloat v = Ok t -> temp_fits t.
Proof.
  intros v t H u x X. unfold Temperature_ofFloat, round_to_int in H. destruct (round_half_away _) as [z|]; [|discriminate].
  destruct (Z.leb_spec (-2147483648) z); [|discriminate]. destruct (Z.leb_spec z 2147483647); [|discriminate]. cbn [andb bind] in H.
  injection H as <-. destruct (precise_fits (mkTemp (Some z) (flt_ltb v (S754_zero false)) true) z u eq_refl eq_refl ltac:(lia)) as (y & k & Y & K).
  rewrite Y in X. injection X as <-. exists k. exact K.
Qed.
Lemma default_fits : temp_fits Temperature_default.
Proof. intros u x X. destruct u; discriminate X. Qed.
Lemma heat_fits : forall pow air dew h, Temperature_heatIndexDP pow air dew = Ok h -> temp_fits h.
Proof.
  intros pow air dew h H. unfold Temperature_heatIndexDP in H. destruct (Temperature_relativeHumidity pow air dew) as [rh|]; [|injection H as <-; exact default_fits].
  rewrite heat_unfold in H. destruct (Temperature_toUnit air Temp_C); [|injection H as <-; exact default_fits].
  destruct (flt_ltb _ _); [injection H as <-; exact default_fits|]. destruct (_ || _)%bool; [injection H as <-; exact default_fits|].
  exact (ofFloat_fits _ _ H).
Qed.
Lemma chill_fits : forall pow air wind h, Temperature_windChill pow air wind = Ok h -> temp_fits h.
Proof.
  intros pow air wind h H. rewrite chill_unfold in H. destruct (Temperature_toUnit air Temp_C); [|injection H as <-; exact default_fits].
  destruct (flt_ltb _ _); [injection H as <-; exact default_fits|]. destruct (Speed_toUnit _ _); [|injection H as <-; exact default_fits].
  destruct (flt_ltb _ _); [injection H as <-; exact default_fits|]. exact (ofFloat_fits _ _ H).
Qed.

(** Relative humidity *)
Definition svf (r : R) : R := 75 / 10 * r / (2377 / 10 + r).
Lemma svf_mono : forall a b, -101 <= a -> a <= b -> svf a <= svf b.
Proof.
  intros a b A L. unfold svf.
  assert (E : forall r, -101 <= r -> 75 / 10 * r / (2377 / 10 + r) = 75 / 10 - 75 / 10 * (2377 / 10) * / (2377 / 10 + r)) by (intros r Hr; field; lra).
  rewrite !E by lra. assert (/ (2377 / 10 + b) <= / (2377 / 10 + a)) by (apply Rinv_le; lra). lra.
Qed.
Lemma exponent_near : forall x r, F32 x r -> mid 7 r -> Rabs r <= 101 ->
  exists c, let y := f64_div (f64_mul (dlit 75 10) (to64 x)) (f64_add (dlit 2377 10) (to64 x)) in
    valid_binary 53 1024 y = true /\ flt_value y = Some c /\ Rabs (Q2R c - svf r) <= / 10 /\ (-10 # 1 <= c <= 10 # 1)%Q.
Proof.
  intros x r X Mr L.
  destruct (dlit_R 75 10) as (l1 & L1 & D1); [lia|lia|].
  destruct (dlit_R 2377 10) as (l2 & L2 & D2); [lia|lia|].
  assert (Lr : -101 <= r <= 101) by (apply Rabs_le_inv; exact L).
  assert (l1b : Rabs (l1 - 75 / 10) <= / 100000000000) by lra.
  assert (l2b : Rabs (l2 - 2377 / 10) <= / 1000000000) by lra.
  apply Rabs_le_inv in l1b, l2b.
  pose proof (to64_ok _ _ X) as X64.
  assert (K10 : bpow radix2 10 = 1024) by reflexivity. assert (K7 : bpow radix2 7 = 128) by reflexivity.
  assert (K3 : bpow radix2 3 = 8) by reflexivity.
  assert (K3' : bpow radix2 (-3) = / 8) by reflexivity. assert (K10' : bpow radix2 (-10) = / 1024) by reflexivity.
  assert (Ml : mid 3 l1) by (right; rewrite Rabs_pos_eq by lra; rewrite K3; change (- (3))%Z with (-3)%Z; rewrite K3'; lra).
  assert (Mp : mid 10 (l1 * r)) by (change 10%Z with (3 + 7)%Z; apply mid_mul; assumption).
  assert (Rn : rel e64 (R64 (l1 * r)) (l1 * r)) by (apply R64_rel; apply (mid_up 10); [lia|exact Mp]).
  assert (M1 : lebp 10 (R64 (l1 * r))).
  { apply R64_b; [lia|]. unfold lebp. rewrite Rabs_mult, (Rabs_pos_eq l1) by lra. rewrite K10.
    apply Rle_trans with (8 * 101); [|lra]. apply Rmult_le_compat; try lra. apply Rabs_pos. }
  assert (A1 : F64 (f64_mul (dlit 75 10) (to64 x)) (R64 (l1 * r))).
  { apply (mul_ok 53 1024 p53 e53); [exact L1|exact X64|]. eapply Rle_lt_trans; [exact M1|apply bp; lia]. }
  assert (M2 : bpow radix2 7 <= R64 (l2 + r)) by (apply R64_low; [lia|rewrite K7; lra]).
  assert (M2' : lebp 10 (R64 (l2 + r))).
  { apply R64_b; [lia|]. unfold lebp. rewrite K10, Rabs_pos_eq by lra. lra. }
  assert (A2 : F64 (f64_add (dlit 2377 10) (to64 x)) (R64 (l2 + r))).
  { apply (add_ok 53 1024 p53 e53); [exact L2|exact X64|]. eapply Rle_lt_trans; [exact M2'|apply bp; lia]. }
  assert (Md : mid 10 (l2 + r)) by (right; rewrite Rabs_pos_eq by lra; rewrite K10; change (- (10))%Z with (-10)%Z; rewrite K10'; lra).
  assert (Rd : rel e64 (R64 (l2 + r)) (l2 + r)) by (apply R64_rel; apply (mid_up 10); [lia|exact Md]).
  set (num := R64 (l1 * r)) in *. set (den := R64 (l2 + r)) in *.
  assert (M3 : lebp 3 (R64 (num / den))).
  { apply R64_b; [lia|]. unfold lebp, Rdiv in *. rewrite Rabs_mult, Rabs_inv, (Rabs_pos_eq den) by lra.
    rewrite K3. replace 8 with (1024 * / 128) by lra. rewrite K10 in M1. rewrite K7 in M2.
    apply Rmult_le_compat; [apply Rabs_pos|apply Rlt_le, Rinv_0_lt_compat; lra|exact M1|].
    apply Rinv_le; lra. }
  assert (A3 : F64 (f64_div (f64_mul (dlit 75 10) (to64 x)) (f64_add (dlit 2377 10) (to64 x))) (R64 (num / den))).
  { apply (div_ok 53 1024 p53 e53); [exact A1|exact A2|lra|]. eapply Rle_lt_trans; [exact M3|apply bp; lia]. }
  destruct (value_of_64 _ _ A3) as (V3 & c & E3 & R3). exists c. cbv zeta. split; [exact V3|]. split; [exact E3|].
  split.
  - rewrite R3.
    assert (Mn : mid 11 num).
    { destruct Mp as [Z|[Z1 Z2]].
      - left. rewrite Z in Rn. unfold rel in Rn. rewrite Rabs_R0, Rmult_0_r in Rn. apply abs_zero in Rn. lra.
      - right. pose proof (rel_abs _ _ _ Rn) as U. pose proof (rel_abs_low _ _ _ Rn) as D. rewrite e64_val in *.
        rewrite K10 in *. change (bpow radix2 (- (10))) with (/ 1024) in *. change (bpow radix2 11) with 2048. change (bpow radix2 (- (11))) with (/ 2048). lra. }
    assert (Mq : mid 21 (num / den)).
    { unfold Rdiv. change 21%Z with (11 + 10)%Z. apply mid_mul; [exact Mn|]. apply mid_inv. right. rewrite K7 in M2. unfold lebp in M2'.
      rewrite K10 in *. change (- (10))%Z with (-10)%Z. rewrite K10'. rewrite Rabs_pos_eq in * by lra. lra. }
    assert (R1 : rel e64 (R64 (num / den)) (num / den)) by (apply R64_rel; apply (mid_up 21); [lia|exact Mq]).
    assert (R2 : rel (2 * / 1000000000) (num / den) (num / (2377 / 10 + r))).
    { apply rel_mul. apply rel_inv; [lra|lra|]. eapply rel_up; [|eapply rel_trans; [|exact Rd|]]; cycle 2.
      - instantiate (1 := / 10000000000). unfold rel. replace (l2 + r - (2377 / 10 + r)) with (l2 - 2377 / 10) by lra.
        rewrite (Rabs_pos_eq (2377 / 10 + r)) by lra. apply Rle_trans with (/ 1000000000); [apply Rabs_le; lra|lra].
      - rewrite e64_val. lra.
      - apply Rlt_le, bpow_gt_0. }
    assert (R4 : rel (/ 1000000000) (num / (2377 / 10 + r)) (svf r)).
    { unfold svf, Rdiv at 1 3. rewrite (Rmult_comm num), (Rmult_comm (75 / 10 * r)). apply rel_mul.
      eapply rel_up; [|eapply rel_trans; [|exact Rn|]]; cycle 2.
      - instantiate (1 := / 10000000000). rewrite (Rmult_comm l1), (Rmult_comm (75 / 10)). apply rel_mul. unfold rel.
        rewrite (Rabs_pos_eq (75 / 10)) by lra. apply Rle_trans with (/ 100000000000); [apply Rabs_le; lra|lra].
      - rewrite e64_val. lra.
      - apply Rlt_le, bpow_gt_0. }
    assert (RR : rel (/ 100000000) (R64 (num / den)) (svf r)).
    { eapply rel_up; [|eapply rel_trans; [|exact R1|eapply rel_trans; [|exact R2|exact R4]]]; rewrite ?e64_val; lra. }
    unfold rel in RR. assert (Rabs (svf r) <= 10).
    { apply Rabs_le. pose proof (svf_mono (-101) r ltac:(lra) ltac:(lra)) as S1. pose proof (svf_mono r 101 ltac:(lra) ltac:(lra)) as S2.
      assert (svf (-101) >= -10) by (unfold svf; lra). assert (svf 101 <= 10) by (unfold svf; lra). lra. }
    lra.
  - unfold lebp in M3. rewrite <- R3, K3 in M3. apply Rabs_le_inv in M3. split; apply Rle_Qle; rewrite Q2R_int; lra.
Qed.
Lemma six_F : exists l, F64 (dlit 611 100) l /\ 6 <= l <= 7.
Proof.
  destruct (dlit_R 611 100) as (l3 & L3 & D3); [lia|lia|]. exists l3. split; [exact L3|].
  unfold Rabs in D3; destruct (Rcase_abs _) in D3; lra.
Qed.
Lemma pressure_ratio : forall pow a d ra rd, pow_tame pow -> F32 a ra -> F32 d rd -> mid 7 ra -> mid 7 rd ->
  Rabs ra <= 101 -> Rabs rd <= 101 -> rd <= ra ->
  exists sa sd, F64 (svp pow a) sa /\ F64 (svp pow d) sd /\ 0 < sa /\ 0 < sd <= 21 * sa /\ bpow radix2 (-37) <= sd /\ sd <= bpow radix2 40.
Proof.
  intros pow a d ra rd [S T] Fa Fd Ma Md La Ld L.
  destruct (exponent_near a ra Fa Ma La) as (ca & Va & Ea & Na & Ba). destruct (exponent_near d rd Fd Md Ld) as (cd & Vd & Ed & Nd & Bd).
  destruct S as [_ S].
  destruct (S _ _ Va Ea Ba) as (ba & Wa & Xa & Pa). destruct (S _ _ Vd Ed Bd) as (bd & Wd & Xd & Pd).
  assert (C : (cd <= ca + 1)%Q).
  { apply Rle_Qle. rewrite Q2R_plus. replace (Q2R 1) with 1 by (unfold Q2R; cbn; lra).
    pose proof (svf_mono rd ra) as M. apply Rabs_le_inv in Ld. specialize (M ltac:(lra) L). apply Rabs_le_inv in Na, Nd. lra. }
  pose proof (T _ _ _ _ _ _ Vd Va Ed Ea Bd Ba C Xd Xa) as R.
  apply Qle_Rle in R. rewrite Q2R_mult in R. replace (Q2R 20) with 20 in R by (unfold Q2R; cbn; lra).
  destruct six_F as (l & Fl & Ll).
  pose proof (flt_value_64 _ _ Wa Xa) as Ya. pose proof (flt_value_64 _ _ Wd Xd) as Yd.
  assert (K : forall b, (1 # 100000000000 <= b <= 100000000000 # 1)%Q -> bpow radix2 (-37) <= Q2R b <= bpow radix2 37).
  { intros b [B1 B2]. apply Qle_Rle in B1, B2. rewrite Q2R_int in B2.
    replace (Q2R (1 # 100000000000)) with (/ 100000000000) in B1 by (unfold Q2R; cbn; lra).
    assert (K37 : bpow radix2 37 = 137438953472) by reflexivity.
    assert (K37' : bpow radix2 (-37) = / 137438953472) by reflexivity. lra. }
  apply K in Pa, Pd. assert (P37 := bpow_gt_0 radix2 (-37)).
  assert (G : forall b, bpow radix2 (-37) <= b <= bpow radix2 37 -> mid 40 (l * b) /\ rel e64 (R64 (l * b)) (l * b) /\ 6 * b <= l * b <= 7 * b).
  { intros b B. assert (Ml : mid 3 l) by (right; rewrite Rabs_pos_eq by lra; change (bpow radix2 3) with 8; change (bpow radix2 (- (3))) with (/ 8); lra).
    assert (Mb : mid 37 b) by (right; rewrite Rabs_pos_eq by lra; exact B).
    assert (M : mid 40 (l * b)) by (change 40%Z with (3 + 37)%Z; apply mid_mul; assumption).
    split; [exact M|]. split; [apply R64_rel; apply (mid_up 40); [lia|exact M]|]. split; apply Rmult_le_compat_r; lra. }
  destruct (G _ Pa) as (G1 & G2 & G3). destruct (G _ Pd) as (H1 & H2 & H3).
  assert (N1 : F64 (svp pow a) (R64 (l * Q2R ba))).
  { apply (mul_ok 53 1024 p53 e53); [exact Fl|exact Ya|]. pose proof (rel_abs _ _ _ G2). rewrite e64_val in *. eapply Rle_lt_trans; [exact H|].
    apply mid_lebp in G1. unfold lebp in G1. pose proof (bpow_gt_0 radix2 40). apply Rle_lt_trans with (2 * bpow radix2 40); [lra|]. change 2 with (bpow radix2 1). rewrite <- bpow_plus. apply bp; lia. }
  assert (N2 : F64 (svp pow d) (R64 (l * Q2R bd))).
  { apply (mul_ok 53 1024 p53 e53); [exact Fl|exact Yd|]. pose proof (rel_abs _ _ _ H2). rewrite e64_val in *. eapply Rle_lt_trans; [exact H|].
    apply mid_lebp in H1. unfold lebp in H1. pose proof (bpow_gt_0 radix2 40). apply Rle_lt_trans with (2 * bpow radix2 40); [lra|]. change 2 with (bpow radix2 1). rewrite <- bpow_plus. apply bp; lia. }
  exists (R64 (l * Q2R ba)), (R64 (l * Q2R bd)). split; [exact N1|]. split; [exact N2|].
  assert (Da : Rabs (R64 (l * Q2R ba) - l * Q2R ba) <= / 1000000 * (l * Q2R ba)).
  { unfold rel in G2. rewrite (Rabs_pos_eq (l * Q2R ba)) in G2 by lra. rewrite e64_val in G2. lra. }
  assert (Dd : Rabs (R64 (l * Q2R bd) - l * Q2R bd) <= / 1000000 * (l * Q2R bd)).
  { unfold rel in H2. rewrite (Rabs_pos_eq (l * Q2R bd)) in H2 by lra. rewrite e64_val in H2. lra. }
  apply Rabs_le_inv in Da, Dd.
  assert (LR : l * Q2R bd <= 20 * (l * Q2R ba)) by nra.
  assert (B40 : bpow radix2 40 = 8 * bpow radix2 37) by (change 8 with (bpow radix2 3); rewrite <- bpow_plus; reflexivity).
  repeat split; try lra.
Qed.
Lemma humidity_fits : forall pow air dew rh, pow_tame pow -> temp_read air -> temp_read dew ->
  Temperature_relativeHumidity pow air dew = Some rh -> exists k, trunc_to_int rh = Ok k.
Proof.
  intros pow air dew rh T Ra Rd H. rewrite humidity_unfold in H.
  assert (G : forall t v, temp_read t -> Temperature_toUnit t Temp_C = Some v -> exists r, F32 v r /\ mid 7 r /\ Rabs r <= 101).
  { intros t v Rt V. destruct Rt as [-> |(s & Ts)]; [discriminate V|].
    destruct (parsed_temperature s t Ts) as [N|(z & E & Q)]; [unfold Temperature_toUnit, Temperature_temperature in V; rewrite N in V; discriminate V|].
    assert (Lz : (Z.abs z <= if precise t then 1000 else 100)%Z) by (unfold degrees_of, Qle, Qabs in Q; cbn [Qnum Qden] in Q; destruct (precise t); lia).
    destruct (temp_F t z E ltac:(destruct (precise t); lia)) as (v' & r & V' & F & D & _ & f & _ & Er & Ef).
    unfold Temperature_toUnit in V. rewrite V' in V. injection V as <-. exists r. split; [exact F|].
    assert (R0 : z = 0%Z -> r = 0).
    { intros ->. rewrite Er, Ef. unfold R32. destruct (precise t); rewrite ?RN_0, ?Rmult_0_l, ?RN_0; reflexivity. }
    assert (Q2 : Rabs (Q2R (degrees_of t z)) <= 100).
    { rewrite <- Q2R_abs. replace 100 with (Q2R 100) by (unfold Q2R; cbn; lra). apply Qle_Rle. unfold degrees_of, Qle, Qabs. cbn [Qnum Qden]. destruct (precise t); lia. }
    assert (Q3 : z <> 0%Z -> / 10 <= Rabs (Q2R (degrees_of t z))).
    { intros N. rewrite <- Q2R_abs. replace (/ 10) with (Q2R (1 # 10)) by (unfold Q2R; cbn; lra). apply Qle_Rle. unfold degrees_of, Qle, Qabs. cbn [Qnum Qden]. destruct (precise t); lia. }
    pose proof (Rabs_triang (r - Q2R (degrees_of t z)) (Q2R (degrees_of t z))) as T1. replace (r - Q2R (degrees_of t z) + Q2R (degrees_of t z)) with r in T1 by lra.
    pose proof (Rabs_triang (Q2R (degrees_of t z) - r) r) as T2. replace (Q2R (degrees_of t z) - r + r) with (Q2R (degrees_of t z)) in T2 by lra. rewrite Rabs_minus_sym in T2.
    split; [|lra]. destruct (Z.eq_dec z 0) as [N|N]; [left; exact (R0 N)|right]. specialize (Q3 N).
    change (bpow radix2 7) with 128. change (bpow radix2 (- (7))) with (/ 128).
    lra. }
  destruct (Temperature_toUnit air Temp_C) as [va|] eqn:Ea; [|discriminate H].
  destruct (Temperature_toUnit dew Temp_C) as [vd|] eqn:Ed; [|discriminate H].
  destruct (G _ _ Ra Ea) as (ra & Fa & Ma & Ba). destruct (G _ _ Rd Ed) as (rd & Fd & Md & Bd).
  pose proof (ltb_true va vd ra rd (to64_ok _ _ Fa) (to64_ok _ _ Fd)) as C.
  destruct (flt_ltb va vd).
  { injection H as <-. exists 100%Z. vm_compute. reflexivity. }
  assert (L : rd <= ra) by (apply Rnot_lt_le; intros K; apply C in K; discriminate). clear C.
  destruct (pressure_ratio pow va vd ra rd T Fa Fd Ma Md Ba Bd L) as (sa & sd & Sa & Sd & P1 & [P2 P3] & P4 & P5).
  assert (F100 : F64 (f64_of_Z 100) 100) by (apply of_Z64_ok; lia).
  assert (K7 : bpow radix2 7 = 128) by reflexivity. assert (K12 : bpow radix2 12 = 4096) by reflexivity.
  assert (L1 : lebp 47 (100 * sd)).
  { unfold lebp. rewrite Rabs_pos_eq by lra. change 47%Z with (7 + 40)%Z. rewrite bpow_plus, K7. apply Rmult_le_compat; lra. }
  assert (M1 : lebp 47 (R64 (100 * sd))) by (apply R64_b; [lia|exact L1]).
  assert (A1 : F64 (f64_mul (f64_of_Z 100) (svp pow vd)) (R64 (100 * sd))).
  { apply (mul_ok 53 1024 p53 e53); [exact F100|exact Sd|]. eapply Rle_lt_trans; [exact M1|apply bp; lia]. }
  assert (Q1 : Rabs (R64 (100 * sd)) <= 4096 * sa).
  { assert (Rabs (100 * sd) = 100 * sd) by (apply Rabs_pos_eq; lra).
    assert (M : mid 47 (100 * sd)).
    { right. split; [|exact L1]. rewrite H0. apply Rle_trans with (bpow radix2 (-37)); [apply bpow_le; lia|lra]. }
    pose proof (rel_abs _ _ _ (R64_rel _ (mid_up 47 100 _ ltac:(lia) M))) as U. rewrite e64_val, H0 in U. lra. }
  assert (M2 : lebp 12 (R64 (R64 (100 * sd) / sa))).
  { apply R64_b; [lia|]. unfold lebp, Rdiv in *. rewrite Rabs_mult, Rabs_inv, (Rabs_pos_eq sa) by lra.
    rewrite K12. apply Rmult_le_reg_r with sa; [exact P1|]. rewrite Rmult_assoc, Rinv_l, Rmult_1_r by lra. exact Q1. }
  assert (A2 : F64 (f64_div (f64_mul (f64_of_Z 100) (svp pow vd)) (svp pow va)) (R64 (R64 (100 * sd) / sa))).
  { apply (div_ok 53 1024 p53 e53); [exact A1|exact Sa|lra|]. eapply Rle_lt_trans; [exact M2|apply bp; lia]. }
  assert (M3 : lebp 12 (R32 (R64 (R64 (100 * sd) / sa)))) by (apply R32_b; [lia|exact M2]).
  apply to32_ok in A2; [|eapply Rle_lt_trans; [exact M3|apply bp; lia]].
  injection H as <-. apply (trunc_F32 _ _ A2). eapply lebp_up; [|exact M3]. lia.
Qed.

(** The pressures of reports *)
Lemma inches_said : forall n imperial, (n < 10000)%N -> exists x z,
  shown_pressure imperial (mkPressure (Some (f32_mul (f32_of_N n) (flit 1 100))) INCHES_HG) = Some x /\ trunc_to_int x = Ok z
  /\ about (1 # 40000) (converted (parts n 100) (pascals_in INCHES_HG) (shown_pascals imperial)) z.
Proof.
  intros n imperial L. destruct (pressure_base n L) as (r & F & M & R).
  apply (pressure_about _ r); [exact F|exact M|exact R|exact L].
Qed.
Lemma hecto_said : forall n imperial, (n < 10000)%N -> exists x z,
  shown_pressure imperial (mkPressure (Some (f32_of_N n)) HECTOPASCAL) = Some x /\ trunc_to_int x = Ok z
  /\ about (1 # 40000) (converted (parts n 1) (pascals_in HECTOPASCAL) (shown_pascals imperial)) z
  /\ (imperial = false -> z = Z.of_N n).
Proof.
  intros n imperial L. destruct (of_N_F n) as (r & F & _ & R); [lia|].
  destruct (pressure_about _ r n 1 HECTOPASCAL imperial F) as (x & z & X & Z & A).
  - assert (Rabs (IZR (Z.of_N n)) = IZR (Z.of_N n)) as An by (apply Rabs_pos_eq; apply IZR_le; lia).
    destruct n as [|p].
    + left. unfold rel in R. change (IZR (Z.of_N 0)) with 0 in R. rewrite Rabs_R0, Rmult_0_r in R. apply abs_zero in R. lra.
    + right. pose proof (rel_abs _ _ _ R) as U. pose proof (rel_abs_low _ _ _ R) as D. rewrite An, e32_val in *.
      assert (1 <= IZR (Z.of_N (N.pos p)) <= 10000) by (split; apply IZR_le; lia).
      change (bpow radix2 30) with 1073741824. change (bpow radix2 (- (30))) with (/ 1073741824). lra.
  - rewrite Q2R_parts. eapply rel_up; [|exact R]. rewrite e32_val. lra.
  - exact L.
  - exists x, z. split; [exact X|]. split; [exact Z|]. split; [exact A|]. intros ->.
    assert (x = f32_of_N n) by (cbn in X; injection X as <-; reflexivity). subst x.
    rewrite integer_shown in Z by lia. injection Z as <-. reflexivity.
Qed.
