(** Heat index and wind chill: when a value is returned, and that no conversion overflows. *)
From Coq Require Import ZArith NArith QArith Qabs Reals Qreals Psatz Lra Bool Lia List.
From Verif Require Import Prim Float Values SpecReal SpecUnits.
From Flocq Require Import Core.Zaux Core.Raux Core.Defs Core.Float_prop Core.Generic_fmt Core.Round_NE Core.FLT Core.FLX
  IEEE754.BinarySingleNaN.
From Verif Require Import Pf_Round Pf_Convert Pf_Units Pf_Miles.
Local Open Scope R_scope.

(** a double of magnitude up to 2^k *)
Definition B (k : Z) (x : flt) : Prop := exists r, F64 x r /\ lebp k r.
Lemma B_up : forall j k x, (j <= k)%Z -> B j x -> B k x.
Proof. intros j k x L (r & R & M). exists r. split; [exact R|]. apply (lebp_up j); assumption. Qed.
Lemma B_mul : forall j k x y, (-500 <= j + k <= 500)%Z -> B j x -> B k y -> B (j + k) (f64_mul x y).
Proof.
  intros j k x y L (a & A & Ma) (b & Bb & Mb). exists (R64 (a * b)).
  assert (M : lebp (j + k) (R64 (a * b))) by (apply R64_b; [lia|apply lebp_mul; assumption]).
  split; [|exact M]. apply (mul_ok 53 1024 p53 e53); [exact A|exact Bb|].
  eapply Rle_lt_trans; [exact M|apply bp; lia].
Qed.
Lemma B_add : forall k x y, (-500 <= k <= 500)%Z -> B k x -> B k y -> B (k + 1) (f64_add x y).
Proof.
  intros k x y L (a & A & Ma) (b & Bb & Mb). exists (R64 (a + b)).
  assert (M : lebp (k + 1) (R64 (a + b))) by (apply R64_b; [lia|apply lebp_add; assumption]).
  split; [|exact M]. apply (add_ok 53 1024 p53 e53); [exact A|exact Bb|].
  eapply Rle_lt_trans; [exact M|apply bp; lia].
Qed.
Lemma B_sub : forall k x y, (-500 <= k <= 500)%Z -> B k x -> B k y -> B (k + 1) (f64_sub x y).
Proof.
  intros k x y L (a & A & Ma) (b & Bb & Mb). exists (R64 (a - b)).
  assert (M : lebp (k + 1) (R64 (a - b))) by (apply R64_b; [lia|apply lebp_sub; assumption]).
  split; [|exact M]. apply (sub_ok 53 1024 p53 e53); [exact A|exact Bb|].
  eapply Rle_lt_trans; [exact M|apply bp; lia].
Qed.
Definition Bcheck (k : Z) (x : flt) : bool :=
  valid_binary 53 1024 x &&
  match x with
  | S754_zero _ => true
  | S754_finite _ m e => (e <=? k)%Z && (Zpos m <=? 2 ^ (k - e))%Z
  | _ => false
  end.
Lemma Bcheck_B : forall k x, Bcheck k x = true -> B k x.
Proof.
  intros k x C. apply andb_true_iff in C. destruct C as [V C].
  exists (SF2R radix2 x). destruct x as [s|s| |s m e]; try discriminate.
  - split; [repeat split; assumption|]. unfold lebp. cbn [SF2R]. rewrite Rabs_R0. apply Rlt_le, bpow_gt_0.
  - split; [repeat split; assumption|]. apply andb_true_iff in C. destruct C as [C1 C2].
    apply Z.leb_le in C1, C2. unfold lebp. cbn [SF2R]. rewrite <- F2R_Zabs, abs_cond_Zopp. cbn [Z.abs].
    unfold F2R. cbn [Fnum Fexp]. replace k with ((k - e) + e)%Z by lia. rewrite bpow_plus.
    apply Rmult_le_compat_r; [apply Rlt_le, bpow_gt_0|]. rewrite <- IZR_Zpower by lia. apply IZR_le. exact C2.
Qed.
Lemma B_32 : forall k x r, F32 x r -> lebp k r -> B k (to64 x).
Proof. intros k x r X M. exists r. split; [apply to64_ok; exact X|exact M]. Qed.

(** *** Comparisons *)
Lemma to64_id : forall x r, F64 x r -> F64 (to64 x) r.
Proof.
  intros x r X. pose proof (isF_lt _ _ _ _ X) as L. pose proof (RN_exact 53 1024 _ _ X) as W.
  destruct X as (V & F & E). destruct x as [s|s| |s m e]; try discriminate.
  - cbn [SF2R] in E. repeat split. exact E.
  - cbn [to64]. unfold normalize64.
    pose proof (norm_ok 53 1024 _ _ (cond_Zopp s (Zpos m)) e s) as N.
    cbn [SF2R] in E. change (F2R (Float radix2 (cond_Zopp s (Zpos m)) e) = r) in E. rewrite E in N.
    rewrite W in N. apply N. exact L.
Qed.
Lemma ltb_R : forall x y a b, F64 (to64 x) a -> F64 (to64 y) b -> flt_ltb x y = Rlt_bool a b.
Proof.
  intros x y a b X Y. unfold flt_ltb. destruct (lift _ _ _ _ X) as (bx & Ex & <- & Fx).
  destruct (lift _ _ _ _ Y) as (b_y & Ey & <- & Fy). rewrite <- Ex, <- Ey.
  change (SFltb (B2SF bx) (B2SF b_y)) with (Bltb bx b_y). apply Bltb_correct; assumption.
Qed.
Lemma ltb_true : forall x y a b, F64 (to64 x) a -> F64 (to64 y) b -> (flt_ltb x y = true <-> a < b).
Proof. intros x y a b X Y. rewrite (ltb_R x y a b X Y). destruct (Rlt_bool_spec a b); split; intros; try lra; congruence. Qed.

(** *** Back to a temperature *)
Lemma ofFloat_ok : forall x, B 26 x -> exists t, Temperature_ofFloat (to32 x) = Ok t /\ Temperature_isReported t = true.
Proof.
  intros x (r & R & M). assert (M32 : lebp 26 (R32 r)) by (apply R32_b; [lia|exact M]).
  assert (T : F32 (to32 x) (R32 r)).
  { apply to32_ok; [exact R|]. eapply Rle_lt_trans; [exact M32|apply bp; reflexivity]. }
  assert (T10 : B 4 (f64_of_Z 10)) by (apply Bcheck_B; vm_compute; reflexivity).
  destruct (B_mul 26 4 (to64 (to32 x)) (f64_of_Z 10)) as (y & Y & My); [lia|apply (B_32 _ _ _ T M32)|exact T10|].
  destruct Y as (_ & F & E). destruct (round_half_any _ F) as (k & K & H). rewrite E in H.
  unfold Temperature_ofFloat, round_to_int. rewrite K.
  unfold lebp in My. assert (P30 : bpow radix2 (26 + 4) = 1073741824) by reflexivity. rewrite P30 in My.
  assert (Rabs (IZR k) <= 1073741825).
  { pose proof (Rabs_triang (IZR k - y) y) as U. replace (IZR k - y + y) with (IZR k) in U by lra. lra. }
  rewrite <- abs_IZR in H0. apply le_IZR in H0.
  destruct (Z.leb_spec (-2147483648) k) as [_|]; [|lia]. destruct (Z.leb_spec k 2147483647) as [_|]; [|lia].
  cbn [andb bind]. eexists. split; reflexivity.
Qed.

(** *** Thresholds of the temperature *)
Definition tenth : R := R32 (R64 (1 / 10)).
Lemma tenth_F : F32 (flit 1 10) tenth.
Proof.
  destruct (dlit_ok 1 10) as (A & _ & C & _); [lia|lia|]. unfold flit.
  apply to32_ok; [exact A|]. apply (mid_lt32 40); [lia|]. apply R32_mid; [lia|exact C].
Qed.
Lemma temp_value : forall t z, tempValue t = Some z -> (Z.abs z <= 10000)%Z -> exists v r,
  Temperature_toUnit t Temp_C = Some v /\ F32 v r /\ lebp 14 r
  /\ (precise t = false -> r = IZR z)
  /\ (precise t = true -> lebp 10 r /\ forall z', (Z.abs z' <= 10000)%Z -> forall r',
        F32 (f32_mul (f32_of_Z z') (flit 1 10)) r' -> ((z' <= z)%Z -> r' <= r) /\ ((z <= z')%Z -> r <= r')).
Proof.
  intros t z E L. destruct (temp_F t z E) as (v & r & V & R & D & N & f & Fm & Er & Ef); [lia|].
  exists v, r. unfold Temperature_toUnit. rewrite V. split; [reflexivity|]. split; [exact R|].
  assert (Lz : Rabs (IZR z) <= 10000) by (rewrite <- abs_IZR; apply IZR_le; exact L).
  assert (K14 : bpow radix2 14 = 16384) by reflexivity.
  assert (K10 : bpow radix2 10 = 1024) by reflexivity.
  assert (Hp : precise t = true -> Rabs r <= 1001).
  { intros P. unfold degrees_of in D. rewrite P in D. replace (Q2R (z # 10)) with (IZR z / 10) in D by reflexivity.
    pose proof (Rabs_triang (r - IZR z / 10) (IZR z / 10)) as U. replace (r - IZR z / 10 + IZR z / 10) with r in U by lra.
    unfold Rdiv in U. rewrite (Rabs_mult (IZR z)), (Rabs_pos_eq (/ 10)) in U by lra. unfold Rdiv in D. lra. }
  split; [|split; [exact N|]].
  - unfold lebp. destruct (precise t) eqn:P.
    + specialize (Hp eq_refl). lra.
    + rewrite (N eq_refl). lra.
  - intros P. split; [unfold lebp; specialize (Hp P); lra|].
    intros z' L' r' R'. destruct (temp_F (mkTemp (Some z') false true) z' eq_refl) as (w & s & W & S & _ & _ & g & Gm & Es & Eg); [lia|].
    unfold Temperature_temperature in W. cbn [tempValue precise] in W. injection W as <-.
    pose proof (isF_fun _ _ _ _ _ R' S). subst r'. rewrite P in Ef. cbn [precise] in Eg. rewrite Er, Es, Ef, Eg in *.
    split; intros Q; apply Fm; apply IZR_le; exact Q.
Qed.
Lemma isF_comp : forall x q, valid_binary 24 128 x = true -> flt_value x = Some q -> F32 x (Q2R q).
Proof. exact value_F32. Qed.
Lemma Q2R_int : forall z, Q2R (z # 1) = IZR z.
Proof. intros. unfold Q2R. cbn. lra. Qed.
(** comparing with a whole number of degrees: [lo] and [hi] are the tenths below and at it *)
Lemma temp_ge : forall t z (n : Z), tempValue t = Some z -> (Z.abs z <= 10000)%Z -> (0 < n < 900)%Z ->
  (exists q, flt_value (f32_mul (f32_of_Z (10 * n)) (flit 1 10)) = Some q /\ (q == n # 1)%Q) ->
  (exists q, flt_value (f32_mul (f32_of_Z (10 * n - 1)) (flit 1 10)) = Some q /\ (q < n # 1)%Q) ->
  (exists q, flt_value (f32_mul (f32_of_Z (10 * n + 1)) (flit 1 10)) = Some q /\ (n # 1 < q)%Q) ->
  valid_binary 24 128 (f32_mul (f32_of_Z (10 * n)) (flit 1 10)) = true ->
  valid_binary 24 128 (f32_mul (f32_of_Z (10 * n - 1)) (flit 1 10)) = true ->
  valid_binary 24 128 (f32_mul (f32_of_Z (10 * n + 1)) (flit 1 10)) = true ->
  exists v r, Temperature_toUnit t Temp_C = Some v /\ F32 v r
    /\ (r < IZR n <-> (degrees_of t z < n # 1)%Q) /\ (IZR n < r <-> (n # 1 < degrees_of t z)%Q).
Proof.
  intros t z n E L Bn (q0 & V0 & Q0) (q1 & V1 & Q1) (q2 & V2 & Q2) W0 W1 W2.
  destruct (temp_value t z E L) as (v & r & V & R & _ & N & P). exists v, r.
  split; [exact V|]. split; [exact R|].
  assert (T1 : (degrees_of t z < n # 1)%Q <-> if precise t then (z < 10 * n)%Z else (z < n)%Z).
  { unfold degrees_of, Qlt. destruct (precise t); cbn [Qnum Qden]; lia. }
  assert (T2 : (n # 1 < degrees_of t z)%Q <-> if precise t then (10 * n < z)%Z else (n < z)%Z).
  { unfold degrees_of, Qlt. destruct (precise t); cbn [Qnum Qden]; lia. }
  rewrite T1, T2. destruct (precise t) eqn:Pr.
  - destruct (P eq_refl) as [_ M].
    destruct (M (10 * n)%Z ltac:(lia) _ (value_F32 _ _ W0 V0)) as [A0 B0].
    destruct (M (10 * n - 1)%Z ltac:(lia) _ (value_F32 _ _ W1 V1)) as [A1 B1].
    destruct (M (10 * n + 1)%Z ltac:(lia) _ (value_F32 _ _ W2 V2)) as [A2 B2].
    rewrite (Qeq_eqR _ _ Q0), Q2R_int in A0, B0.
    apply Qlt_Rlt in Q1, Q2. rewrite Q2R_int in Q1, Q2.
    split; split; intros H.
    + destruct (Z.lt_ge_cases z (10 * n)) as [K|K]; [exact K|]. apply A0 in K. lra.
    + assert (K : (z <= 10 * n - 1)%Z) by lia. apply B1 in K. lra.
    + destruct (Z.lt_ge_cases (10 * n) z) as [K|K]; [exact K|]. apply B0 in K. lra.
    + assert (K : (10 * n + 1 <= z)%Z) by lia. apply A2 in K. lra.
  - rewrite (N eq_refl). split; split; intros H; [apply lt_IZR|apply IZR_lt|apply lt_IZR|apply IZR_lt]; exact H.
Qed.
Ltac point := eexists; split; [vm_compute; reflexivity|vm_compute; reflexivity].
Lemma temp_27 : forall t z, tempValue t = Some z -> (Z.abs z <= 10000)%Z ->
  exists v r, Temperature_toUnit t Temp_C = Some v /\ F32 v r /\ (r < 27 <-> (degrees_of t z < 27 # 1)%Q).
Proof.
  intros t z E L. destruct (temp_ge t z 27 E L ltac:(lia)) as (v & r & V & R & H & _);
    [point|point|point|vm_compute; reflexivity|vm_compute; reflexivity|vm_compute; reflexivity|].
  exists v, r. auto.
Qed.
Lemma temp_10 : forall t z, tempValue t = Some z -> (Z.abs z <= 10000)%Z ->
  exists v r, Temperature_toUnit t Temp_C = Some v /\ F32 v r /\ (10 < r <-> (10 # 1 < degrees_of t z)%Q).
Proof.
  intros t z E L. destruct (temp_ge t z 10 E L ltac:(lia)) as (v & r & V & R & _ & H);
    [point|point|point|vm_compute; reflexivity|vm_compute; reflexivity|vm_compute; reflexivity|].
  exists v, r. auto.
Qed.

Lemma B_add' : forall j k l x y, (-500 <= j)%Z -> (-500 <= k)%Z -> (Z.max j k + 1 <= l <= 500)%Z ->
  B j x -> B k y -> B l (f64_add x y).
Proof.
  intros j k l x y J K L X Y. apply (B_up (Z.max j k + 1)); [lia|].
  apply B_add; [lia|apply (B_up j); [lia|exact X]|apply (B_up k); [lia|exact Y]].
Qed.
Lemma B_mul' : forall j k l x y, (-500 <= j + k)%Z -> (j + k <= l <= 500)%Z ->
  B j x -> B k y -> B l (f64_mul x y).
Proof. intros j k l x y J L X Y. apply (B_up (j + k)); [lia|]. apply B_mul; [lia|exact X|exact Y]. Qed.

Definition heat_sum (t r : flt) : flt :=
  let c1 := dlit (-878469475556) 100000000000 in
  let c2 := dlit 161139411 100000000 in
  let c3 := dlit 233854883889 100000000000 in
  let c4 := dlit (-14611605) 100000000 in
  let c5 := dlit (-12308094) 1000000000 in
  let c6 := dlit (-164248277778) 10000000000000 in
  let c7 := dlit 2211732 1000000000 in
  let c8 := dlit 72546 100000000 in
  let c9 := dlit (-3582) 1000000000 in
  let m := f64_mul in
  let p := f64_add in
  p (p (p (p (p (p (p (p c1 (m c2 t)) (m c3 r)) (m (m c4 t) r))
    (m (m c5 t) t)) (m (m c6 r) r)) (m (m (m c7 t) t) r))
    (m (m (m c8 t) r) r)) (m (m (m (m c9 t) t) r) r).
Ltac lit := apply Bcheck_B; vm_compute; reflexivity.
Lemma heat_sum_B : forall t r, B 10 t -> B 7 r -> B 26 (heat_sum t r).
Proof.
  intros t r T R. unfold heat_sum.
  assert (A1 : B 11 (f64_mul (dlit 161139411 100000000) t)) by (apply (B_mul' 1 10); [lia|lia|lit|exact T]).
  assert (A2 : B 9 (f64_mul (dlit 233854883889 100000000000) r)) by (apply (B_mul' 2 7); [lia|lia|lit|exact R]).
  assert (A3 : B 15 (f64_mul (f64_mul (dlit (-14611605) 100000000) t) r)).
  { apply (B_mul' 8 7); [lia|lia| |exact R]. apply (B_mul' (-2) 10); [lia|lia|lit|exact T]. }
  assert (A4 : B 14 (f64_mul (f64_mul (dlit (-12308094) 1000000000) t) t)).
  { apply (B_mul' 4 10); [lia|lia| |exact T]. apply (B_mul' (-6) 10); [lia|lia|lit|exact T]. }
  assert (A5 : B 9 (f64_mul (f64_mul (dlit (-164248277778) 10000000000000) r) r)).
  { apply (B_mul' 2 7); [lia|lia| |exact R]. apply (B_mul' (-5) 7); [lia|lia|lit|exact R]. }
  assert (A6 : B 19 (f64_mul (f64_mul (f64_mul (dlit 2211732 1000000000) t) t) r)).
  { apply (B_mul' 12 7); [lia|lia| |exact R]. apply (B_mul' 2 10); [lia|lia| |exact T].
    apply (B_mul' (-8) 10); [lia|lia|lit|exact T]. }
  assert (A7 : B 14 (f64_mul (f64_mul (f64_mul (dlit 72546 100000000) t) r) r)).
  { apply (B_mul' 7 7); [lia|lia| |exact R]. apply (B_mul' 0 7); [lia|lia| |exact R].
    apply (B_mul' (-10) 10); [lia|lia|lit|exact T]. }
  assert (A8 : B 16 (f64_mul (f64_mul (f64_mul (f64_mul (dlit (-3582) 1000000000) t) t) r) r)).
  { apply (B_mul' 9 7); [lia|lia| |exact R]. apply (B_mul' 2 7); [lia|lia| |exact R].
    apply (B_mul' (-8) 10); [lia|lia| |exact T]. apply (B_mul' (-18) 10); [lia|lia|lit|exact T]. }
  apply (B_add' 22 16); [lia|lia|lia| |exact A8].
  apply (B_add' 21 14); [lia|lia|lia| |exact A7].
  apply (B_add' 19 19); [lia|lia|lia| |exact A6].
  apply (B_add' 18 9); [lia|lia|lia| |exact A5].
  apply (B_add' 17 14); [lia|lia|lia| |exact A4].
  apply (B_add' 13 15); [lia|lia|lia| |exact A3].
  apply (B_add' 12 9); [lia|lia|lia| |exact A2].
  apply (B_add' 4 11); [lia|lia|lia|lit|exact A1].
Qed.
Lemma heat_unfold : forall air rh, Temperature_heatIndexRH air rh =
  match Temperature_toUnit air Temp_C with
  | None => Ok Temperature_default
  | Some tc =>
    if flt_ltb tc (f64_of_Z 27) then Ok Temperature_default else
    if flt_ltb (f64_of_Z 100) rh || flt_ltb rh (f64_of_Z 40) then Ok Temperature_default else
    Temperature_ofFloat (to32 (heat_sum (to64 tc) (to64 rh)))
  end.
Proof.
  intros air rh. unfold Temperature_heatIndexRH, heat_sum.
  destruct (Temperature_toUnit air Temp_C) as [tc|]; [|reflexivity].
  destruct (flt_ltb tc (f64_of_Z 27)); [reflexivity|].
  destruct (flt_ltb (f64_of_Z 100) rh || flt_ltb rh (f64_of_Z 40)); [reflexivity|].
  cbv zeta. reflexivity.
Qed.

Lemma temp_bound : forall t z, tempValue t = Some z -> (Qabs (degrees_of t z) <= 1000 # 1)%Q ->
  (Z.abs z <= 10000)%Z /\ forall v r, Temperature_toUnit t Temp_C = Some v -> F32 v r -> lebp 10 r.
Proof.
  intros t z E L.
  assert (Lz : (Z.abs z <= (if precise t then 10000 else 1000))%Z).
  { unfold degrees_of in L. apply Qabs_Qle_condition in L. unfold Qle in L. cbn [Qnum Qden Qopp] in L.
    destruct (precise t); lia. }
  split; [destruct (precise t); lia|]. intros v r V R.
  destruct (temp_value t z E) as (v' & r' & V' & R' & _ & N & P); [destruct (precise t); lia|].
  rewrite V in V'. injection V' as <-. pose proof (isF_fun _ _ _ _ _ R R'). subst r'.
  destruct (precise t) eqn:Pr; [apply P; reflexivity|]. rewrite (N eq_refl). unfold lebp.
  rewrite <- abs_IZR. change (bpow radix2 10) with (IZR 1024). apply IZR_le. lia.
Qed.

Lemma default_unreported : Temperature_isReported Temperature_default = false.
Proof. reflexivity. Qed.
Lemma heat_index_range : forall t z rh q, tempValue t = Some z -> (Qabs (degrees_of t z) <= 1000 # 1)%Q ->
  valid_binary 24 128 rh = true -> flt_value rh = Some q ->
  exists h, Temperature_heatIndexRH t rh = Ok h
    /\ (Temperature_isReported h = true
        <-> (27 # 1 <= degrees_of t z)%Q /\ (40 # 1 <= q <= 100 # 1)%Q).
Proof.
  intros t z rh q E L V W. destruct (temp_bound t z E L) as (Lz & Bd).
  destruct (temp_27 t z E Lz) as (v & r & Vv & R & H). rewrite heat_unfold, Vv.
  pose proof (value_F32 _ _ V W) as Q.
  assert (F27 : F64 (to64 (f64_of_Z 27)) 27) by (apply to64_id; apply of_Z64_ok; lia).
  assert (F100 : F64 (to64 (f64_of_Z 100)) 100) by (apply to64_id; apply of_Z64_ok; lia).
  assert (F40 : F64 (to64 (f64_of_Z 40)) 40) by (apply to64_id; apply of_Z64_ok; lia).
  pose proof (ltb_true v (f64_of_Z 27) r 27 (to64_ok _ _ R) F27) as C1.
  pose proof (ltb_true (f64_of_Z 100) rh 100 (Q2R q) F100 (to64_ok _ _ Q)) as C2.
  pose proof (ltb_true rh (f64_of_Z 40) (Q2R q) 40 (to64_ok _ _ Q) F40) as C3.
  assert (G1 : (27 # 1 <= degrees_of t z)%Q <-> ~ r < 27).
  { rewrite H. split; intros K; [apply Qle_not_lt; exact K|apply Qnot_lt_le; exact K]. }
  assert (G2 : (40 # 1 <= q)%Q <-> ~ Q2R q < 40).
  { split; intros K.
    - apply Qle_Rle in K. rewrite Q2R_int in K. lra.
    - apply Rle_Qle. rewrite Q2R_int. lra. }
  assert (G3 : (q <= 100 # 1)%Q <-> ~ 100 < Q2R q).
  { split; intros K.
    - apply Qle_Rle in K. rewrite Q2R_int in K. lra.
    - apply Rle_Qle. rewrite Q2R_int. lra. }
  destruct (flt_ltb v (f64_of_Z 27)) eqn:D1.
  { exists Temperature_default. split; [reflexivity|]. rewrite default_unreported.
    split; [discriminate|]. intros [K _]. apply G1 in K. exfalso. apply K, C1. reflexivity. }
  destruct (flt_ltb (f64_of_Z 100) rh) eqn:D2; cbn [orb].
  { exists Temperature_default. split; [reflexivity|]. rewrite default_unreported.
    split; [discriminate|]. intros (_ & _ & K). apply G3 in K. exfalso. apply K, C2. reflexivity. }
  destruct (flt_ltb rh (f64_of_Z 40)) eqn:D3.
  { exists Temperature_default. split; [reflexivity|]. rewrite default_unreported.
    split; [discriminate|]. intros (_ & K & _). apply G2 in K. exfalso. apply K, C3. reflexivity. }
  assert (N1 : ~ r < 27) by (intros K; apply C1 in K; discriminate).
  assert (N2 : ~ 100 < Q2R q) by (intros K; apply C2 in K; discriminate).
  assert (N3 : ~ Q2R q < 40) by (intros K; apply C3 in K; discriminate).
  destruct (ofFloat_ok (heat_sum (to64 v) (to64 rh))) as (h & Eh & Rh).
  - apply heat_sum_B.
    + apply (B_32 _ _ _ R). apply (Bd v r Vv R).
    + apply (B_32 _ _ _ Q). unfold lebp. assert (K : bpow radix2 7 = 128) by reflexivity. rewrite K.
      rewrite Rabs_pos_eq; lra.
  - exists h. split; [exact Eh|]. rewrite Rh. split; [|reflexivity]. intros _.
    split; [apply G1; exact N1|]. split; [apply G2; exact N3|apply G3; exact N2].
Qed.
Lemma heat_index_unreported : forall t rh, tempValue t = None -> Temperature_heatIndexRH t rh = Ok Temperature_default.
Proof. intros t rh E. rewrite heat_unfold. unfold Temperature_toUnit, Temperature_temperature. rewrite E. reflexivity. Qed.
Lemma heat_index_nan : Temperature_heatIndexRH (mkTemp (Some 30%Z) false false) S754_nan = Bad UB.
Proof. vm_compute. reflexivity. Qed.

(** *** Wind chill *)
Definition chill_sum (t pw : flt) : flt :=
  f64_add (f64_sub (f64_add (dlit 1312 100) (f64_mul (dlit 6215 10000) t)) (f64_mul (dlit 1137 100) pw))
          (f64_mul (f64_mul (dlit 3965 10000) t) pw).
Lemma chill_sum_B : forall t p, B 10 t -> B 15 p -> B 26 (chill_sum t p).
Proof.
  intros t p T P. unfold chill_sum.
  assert (A1 : B 10 (f64_mul (dlit 6215 10000) t)) by (apply (B_mul' 0 10); [lia|lia|lit|exact T]).
  assert (A2 : B 19 (f64_mul (dlit 1137 100) p)) by (apply (B_mul' 4 15); [lia|lia|lit|exact P]).
  assert (A3 : B 24 (f64_mul (f64_mul (dlit 3965 10000) t) p)).
  { apply (B_mul' 9 15); [lia|lia| |exact P]. apply (B_mul' (-1) 10); [lia|lia|lit|exact T]. }
  assert (A4 : B 11 (f64_add (dlit 1312 100) (f64_mul (dlit 6215 10000) t))).
  { apply (B_add' 4 10); [lia|lia|lia|lit|exact A1]. }
  apply (B_add' 20 24); [lia|lia|lia| |exact A3].
  apply (B_sub 19); [lia|apply (B_up 11); [lia|exact A4]|exact A2].
Qed.
Lemma chill_unfold : forall pow air wind, Temperature_windChill pow air wind =
  match Temperature_toUnit air Temp_C with
  | None => Ok Temperature_default
  | Some tc =>
    if flt_ltb (f64_of_Z 10) tc then Ok Temperature_default else
    match Speed_toUnit wind KILOMETERS_PER_HOUR with
    | None => Ok Temperature_default
    | Some wk =>
      if flt_ltb wk (dlit 48 10) then Ok Temperature_default else
      Temperature_ofFloat (to32 (chill_sum (to64 tc) (pow (to64 wk) (dlit 16 100))))
    end
  end.
Proof.
  intros pow air wind. unfold Temperature_windChill, chill_sum.
  destruct (Temperature_toUnit air Temp_C) as [tc|]; [|reflexivity].
  destruct (flt_ltb (f64_of_Z 10) tc); [reflexivity|].
  destruct (Speed_toUnit wind KILOMETERS_PER_HOUR) as [wk|]; [|reflexivity].
  destruct (flt_ltb wk (dlit 48 10)); [reflexivity|]. cbv zeta. reflexivity.
Qed.

Lemma abs_zero : forall r, Rabs r <= 0 -> r = 0.
Proof. intros r H. unfold Rabs in H. destruct (Rcase_abs r); lra. Qed.
(** the wind is below 4.8 km/h exactly if it is below a number [c] of its units *)
Definition calm_below (u : SpeedUnit) : N :=
  match u with KNOTS => 3 | METERS_PER_SECOND => 2 | KILOMETERS_PER_HOUR => 5 | MILES_PER_HOUR => 3 end.
Lemma wind_F : forall n u, (n <= 5000)%N -> exists w r,
  Speed_toUnit (mkSpeed (Some n) u) KILOMETERS_PER_HOUR = Some w /\ F32 w r /\ 0 <= r <= 20000
  /\ (flt_ltb w (dlit 48 10) = true <-> (n < calm_below u)%N).
Proof.
  intros n u L. destruct (speed_conv_ok u KILOMETERS_PER_HOUR) as (E & f & F1 & F2 & F3).
  destruct (of_N_F n) as (r & R & M & D); [lia|].
  assert (M50 : mid 50 r) by (apply (mid_up 40); [lia|exact M]).
  assert (Lr : 0 <= r <= 5001).
  { unfold rel in D. assert (0 <= IZR (Z.of_N n) <= 5000) by (split; apply IZR_le; lia).
    rewrite (Rabs_pos_eq (IZR _)) in D by lra. rewrite e32_val in D. unfold Rabs in D.
    assert (r = R32 (IZR (Z.of_N n))).
    { apply (isF_fun 24 128 (f32_of_N n)); [exact R|apply of_Z_ok; lia]. }
    assert (0 <= r). { rewrite H0. unfold R32. rewrite <- (RN_0 24 128). apply (RN_mono 24 128 p24). lra. }
    destruct (Rcase_abs (r - IZR (Z.of_N n))); lra. }
  set (w := speed_conv u KILOMETERS_PER_HOUR (f32_of_N n)).
  assert (W : F32 w (f r)) by (apply F1; assumption).
  exists w, (f r). split; [apply E|]. split; [exact W|].
  assert (Bq : 0 <= Q2R (metres_per_hour_in u / metres_per_hour_in KILOMETERS_PER_HOUR) <= 36 / 10).
  { destruct u; unfold Q2R; cbn; lra. }
  assert (F0 : 0 <= f r).
  { destruct (of_N_F 0%N) as (r0 & R0 & M0 & D0); [lia|].
    assert (r0 = 0). { unfold rel in D0. cbn in D0. rewrite Rabs_R0, Rminus_0_r in D0. 
      apply abs_zero. lra. }
    subst r0. pose proof (F2 0 (or_introl eq_refl)) as D1. unfold rel in D1.
    rewrite Rmult_0_l, Rabs_R0, Rminus_0_r in D1. assert (f 0 = 0).
    { apply abs_zero. lra. }
    rewrite <- H. apply F3. lra. }
  split.
  { split; [exact F0|]. pose proof (F2 r M50) as D1. apply rel_abs in D1.
    rewrite (Rabs_pos_eq (f r)) in D1 by exact F0. rewrite Rabs_pos_eq in D1 by nra.
    replace (Q2R tol) with (/ 100000) in D1 by (unfold tol, Q2R; cbn; lra).
    set (q := Q2R (metres_per_hour_in u / metres_per_hour_in KILOMETERS_PER_HOUR)) in *.
    assert (r * q <= 5001 * (36 / 10)) by (apply Rmult_le_compat; lra). lra. }
  assert (F48 : exists l, F64 (dlit 48 10) l).
  { destruct (dlit_ok 48 10) as (A & _); [lia|lia|]. eexists. exact A. }
  destruct F48 as (l & Fl).
  assert (Pt : forall n' : N, (n' < 4294967296)%N -> exists r', F32 (f32_of_N n') r' /\
    F32 (speed_conv u KILOMETERS_PER_HOUR (f32_of_N n')) (f r')
    /\ (flt_ltb (speed_conv u KILOMETERS_PER_HOUR (f32_of_N n')) (dlit 48 10) = true <-> f r' < l)).
  { intros n' L'. destruct (of_N_F n' L') as (r' & R' & M' & _). exists r'. split; [exact R'|].
    assert (W' : F32 (speed_conv u KILOMETERS_PER_HOUR (f32_of_N n')) (f r')).
    { apply F1; [exact R'|]. apply (mid_up 40); [lia|exact M']. }
    split; [exact W'|]. apply ltb_true; [apply to64_ok; exact W'|apply to64_id; exact Fl]. }
  destruct (Pt n) as (rn & Rn & Wn & Cn); [lia|]. pose proof (isF_fun _ _ _ _ _ Rn R). subst rn.
  destruct (Pt (calm_below u)) as (r1 & R1 & W1 & C1); [destruct u; cbn; lia|].
  destruct (Pt (calm_below u - 1)%N) as (r2 & R2 & W2 & C2); [destruct u; cbn; lia|].
  assert (V1 : flt_ltb (speed_conv u KILOMETERS_PER_HOUR (f32_of_N (calm_below u))) (dlit 48 10) = false).
  { destruct u; vm_compute; reflexivity. }
  assert (V2 : flt_ltb (speed_conv u KILOMETERS_PER_HOUR (f32_of_N (calm_below u - 1))) (dlit 48 10) = true).
  { destruct u; vm_compute; reflexivity. }
  fold w in Cn. rewrite Cn. split; intros H.
  - destruct (N.lt_ge_cases n (calm_below u)) as [K|K]; [exact K|].
    destruct (of_N_mono (calm_below u) n K) as (a & b & A & Bb & LE); [lia|].
    pose proof (isF_fun _ _ _ _ _ A R1). pose proof (isF_fun _ _ _ _ _ Bb R). subst a b.
    apply F3 in LE. assert (f r1 < l) by lra. apply C1 in H0. congruence.
  - destruct (of_N_mono n (calm_below u - 1)%N) as (a & b & A & Bb & LE); [lia|destruct u; cbn; lia|].
    pose proof (isF_fun _ _ _ _ _ A R). pose proof (isF_fun _ _ _ _ _ Bb R2). subst a b.
    apply F3 in LE. apply C2 in V2. lra.
Qed.
Lemma calm_spec : forall n u, ((n < calm_below u)%N <->
  (converted (parts n 1) (metres_per_hour_in u) (metres_per_hour_in KILOMETERS_PER_HOUR) < 48 # 10)%Q).
Proof.
  intros n u. destruct u; unfold converted, parts, metres_per_hour_in, calm_below, Qlt; cbn -[Z.mul Z.of_N]; lia.
Qed.
Lemma flt_value_64 : forall x q, valid_binary 53 1024 x = true -> flt_value x = Some q -> F64 x (Q2R q).
Proof.
  intros x q V E. assert (F : is_finite_SF x = true) by (destruct x; try discriminate; reflexivity).
  destruct (flt_value_R x F) as (q' & E' & R'). rewrite E in E'. injection E' as <-.
  repeat split; auto.
Qed.
Lemma value_of_64 : forall x r, F64 x r -> valid_binary 53 1024 x = true /\ exists q, flt_value x = Some q /\ Q2R q = r.
Proof. intros x r (V & F & E). split; [exact V|]. rewrite <- E. apply flt_value_R. exact F. Qed.

Lemma wind_chill_range : forall pow t z n u, pow_sane pow ->
  tempValue t = Some z -> (Qabs (degrees_of t z) <= 1000 # 1)%Q -> (n <= 5000)%N ->
  exists h, Temperature_windChill pow t (mkSpeed (Some n) u) = Ok h
    /\ (Temperature_isReported h = true
        <-> (degrees_of t z <= 10 # 1)%Q
            /\ (48 # 10 <= converted (parts n 1) (metres_per_hour_in u) (metres_per_hour_in KILOMETERS_PER_HOUR))%Q).
Proof.
  intros pow t z n u S E L Ln. destruct (temp_bound t z E L) as (Lz & Bd).
  destruct (temp_10 t z E Lz) as (v & r & Vv & R & H). rewrite chill_unfold, Vv.
  assert (F10 : F64 (to64 (f64_of_Z 10)) 10) by (apply to64_id; apply of_Z64_ok; lia).
  pose proof (ltb_true (f64_of_Z 10) v 10 r F10 (to64_ok _ _ R)) as C1.
  assert (G1 : (degrees_of t z <= 10 # 1)%Q <-> ~ 10 < r).
  { rewrite H. split; intros K; [apply Qle_not_lt; exact K|apply Qnot_lt_le; exact K]. }
  destruct (wind_F n u Ln) as (w & s & W & Fw & Bw & Cw). rewrite W.
  assert (G2 : (48 # 10 <= converted (parts n 1) (metres_per_hour_in u) (metres_per_hour_in KILOMETERS_PER_HOUR))%Q
    <-> ~ (n < calm_below u)%N).
  { rewrite calm_spec. split; intros K; [apply Qle_not_lt; exact K|apply Qnot_lt_le; exact K]. }
  destruct (flt_ltb (f64_of_Z 10) v) eqn:D1.
  { exists Temperature_default. split; [reflexivity|]. rewrite default_unreported.
    split; [discriminate|]. intros [K _]. apply G1 in K. exfalso. apply K, C1. reflexivity. }
  destruct (flt_ltb w (dlit 48 10)) eqn:D2.
  { exists Temperature_default. split; [reflexivity|]. rewrite default_unreported.
    split; [discriminate|]. intros [_ K]. apply G2 in K. exfalso. apply K, Cw. reflexivity. }
  assert (N1 : ~ 10 < r) by (intros K; apply C1 in K; discriminate).
  assert (N2 : ~ (n < calm_below u)%N) by (intros K; apply Cw in K; discriminate).
  assert (F48 : exists l, F64 (dlit 48 10) l /\ 1 <= l).
  { exists (SF2R radix2 (dlit 48 10)). split; [repeat split; vm_compute; reflexivity|].
    destruct (dlit_ok 48 10) as (A & Bm & C & P); [lia|lia|]. destruct A as (_ & _ & ->).
    assert (T : rel e64 (R64 (48 / 10)) (48 / 10)) by (apply R64_rel; apply (mid_up 40); [lia|exact Bm]).
    unfold rel in T. rewrite (Rabs_pos_eq (48 / 10)) in T by lra. rewrite e64_val in T. unfold Rabs in T.
    destruct (Rcase_abs (R64 (48 / 10) - 48 / 10)); lra. }
  destruct F48 as (l & Fl & Ll).
  assert (Ls : ~ s < l).
  { intros K. apply (ltb_true w (dlit 48 10) s l (to64_ok _ _ Fw) (to64_id _ _ Fl)) in K. congruence. }
  destruct (value_of_64 _ _ (to64_ok _ _ Fw)) as (Vw & qw & Ew & Rw).
  destruct S as [S1 _]. destruct (S1 (to64 w) qw Vw Ew) as (b & Vb & Eb & Bb).
  { split; apply Rle_Qle; rewrite Rw; [replace (Q2R 1) with 1 by (unfold Q2R; cbn; lra)|rewrite Q2R_int]; lra. }
  destruct (ofFloat_ok (chill_sum (to64 v) (pow (to64 w) (dlit 16 100)))) as (h & Eh & Rh).
  - apply chill_sum_B; [apply (B_32 _ _ _ R); apply (Bd v r Vv R)|].
    exists (Q2R b). split; [apply flt_value_64; assumption|]. unfold lebp.
    destruct Bb as [Bb1 Bb2]. apply Qle_Rle in Bb1, Bb2. rewrite RMicromega.Q2R_0 in Bb1. rewrite Q2R_int in Bb2.
    rewrite Rabs_pos_eq by lra. assert (K : bpow radix2 15 = 32768) by reflexivity. lra.
  - exists h. split; [exact Eh|]. rewrite Rh. split; [|reflexivity]. intros _.
    split; [apply G1; exact N1|apply G2; exact N2].
Qed.
Lemma wind_chill_unreported : forall pow t w, tempValue t = None \/ speedValue w = None ->
  Temperature_windChill pow t w = Ok Temperature_default.
Proof.
  intros pow t w D. rewrite chill_unfold. destruct (Temperature_toUnit t Temp_C) as [v|] eqn:V; [|reflexivity].
  destruct D as [D|D].
  - unfold Temperature_toUnit, Temperature_temperature in V. rewrite D in V. discriminate.
  - destruct (flt_ltb (f64_of_Z 10) v); [reflexivity|]. unfold Speed_toUnit. rewrite D. reflexivity.
Qed.

(** *** Relative humidity *)
Definition svp (pow : flt -> flt -> flt) (x : flt) : flt :=
  f64_mul (dlit 611 100) (pow (f64_of_Z 10) (f64_div (f64_mul (dlit 75 10) (to64 x)) (f64_add (dlit 2377 10) (to64 x)))).
Lemma humidity_unfold : forall pow air dew, Temperature_relativeHumidity pow air dew =
  match Temperature_toUnit air Temp_C, Temperature_toUnit dew Temp_C with
  | Some t, Some d => if flt_ltb t d then Some (f32_of_Z 100)
                      else Some (to32 (f64_div (f64_mul (f64_of_Z 100) (svp pow d)) (svp pow t)))
  | _, _ => None
  end.
Proof.
  intros pow air dew. unfold Temperature_relativeHumidity, svp.
  destruct (Temperature_toUnit air Temp_C) as [t|]; [|reflexivity].
  destruct (Temperature_toUnit dew Temp_C) as [d|]; [|reflexivity].
  destruct (flt_ltb t d); reflexivity.
Qed.
Lemma R64_low : forall k r, (-1074 <= k)%Z -> bpow radix2 k <= r -> bpow radix2 k <= R64 r.
Proof.
  intros k r L H. apply round_ge_generic; [apply FLT_exp_valid; exact p53|apply valid_rnd_N| |exact H].
  apply (format_bpow 53 1024 p53). exact L.
Qed.
Lemma dlit_R : forall n d, (0 < n <= 2 ^ 40)%Z -> (0 < d <= 2 ^ 40)%Z ->
  exists l, F64 (dlit n d) l /\ Rabs (l - IZR n / IZR d) <= / 1000000000000 * (IZR n / IZR d).
Proof.
  intros n d N D. destruct (dlit_ok n d N D) as (A & M & C & P). eexists. split; [exact A|].
  assert (T : rel e64 (R64 (IZR n / IZR d)) (IZR n / IZR d)) by (apply R64_rel; apply (mid_up 40); [lia|exact M]).
  unfold rel in T. assert (0 < IZR n / IZR d) by (apply Rdiv_lt_0_compat; apply IZR_lt; lia).
  rewrite (Rabs_pos_eq (IZR n / IZR d)) in T by lra. rewrite e64_val in T.
  eapply Rle_trans; [exact T|]. apply Rmult_le_compat_r; lra.
Qed.
Lemma svp_ok : forall pow x r, pow_sane pow -> F32 x r -> Rabs r <= 101 ->
  exists s, F64 (svp pow x) s /\ bpow radix2 (-37) <= s <= bpow radix2 40.
Proof.
  intros pow x r [_ S] X L. unfold svp.
  destruct (dlit_R 75 10) as (l1 & L1 & D1); [lia|lia|].
  destruct (dlit_R 2377 10) as (l2 & L2 & D2); [lia|lia|].
  destruct (dlit_R 611 100) as (l3 & L3 & D3); [lia|lia|].
  assert (Lr : -101 <= r <= 101) by (apply Rabs_le_inv; exact L).
  assert (l1b : 7 <= l1 <= 8) by (unfold Rabs in D1; destruct (Rcase_abs _) in D1; lra).
  assert (l2b : 237 <= l2 <= 238) by (unfold Rabs in D2; destruct (Rcase_abs _) in D2; lra).
  assert (l3b : 6 <= l3 <= 7) by (unfold Rabs in D3; destruct (Rcase_abs _) in D3; lra).
  pose proof (to64_ok _ _ X) as X64.
  assert (K10 : bpow radix2 10 = 1024) by reflexivity. assert (K7 : bpow radix2 7 = 128) by reflexivity.
  assert (K3 : bpow radix2 3 = 8) by reflexivity.
  assert (M1 : lebp 10 (R64 (l1 * r))).
  { apply R64_b; [lia|]. unfold lebp. rewrite Rabs_mult, (Rabs_pos_eq l1) by lra. rewrite K10.
    apply Rle_trans with (8 * 101); [|lra]. apply Rmult_le_compat; try lra. apply Rabs_pos. }
  assert (A1 : F64 (f64_mul (dlit 75 10) (to64 x)) (R64 (l1 * r))).
  { apply (mul_ok 53 1024 p53 e53); [exact L1|exact X64|]. eapply Rle_lt_trans; [exact M1|apply bp; lia]. }
  assert (M2 : bpow radix2 7 <= R64 (l2 + r)) by (apply R64_low; [lia|rewrite K7; lra]).
  assert (M2' : lebp 10 (R64 (l2 + r))).
  { apply R64_b; [lia|]. unfold lebp. rewrite K10, Rabs_pos_eq by lra. lra. }
  assert (A2 : F64 (f64_add (dlit 2377 10) (to64 x)) (R64 (l2 + r))).
  { apply (add_ok 53 1024 p53 e53); [exact L2|exact X64|]. eapply Rle_lt_trans; [exact M2'|apply bp; lia]. }
  set (num := R64 (l1 * r)) in *. set (den := R64 (l2 + r)) in *.
  assert (M3 : lebp 3 (R64 (num / den))).
  { apply R64_b; [lia|]. unfold lebp, Rdiv in *. rewrite Rabs_mult, Rabs_inv, (Rabs_pos_eq den) by lra.
    rewrite K3. replace 8 with (1024 * / 128) by lra. rewrite K10 in M1. rewrite K7 in M2.
    apply Rmult_le_compat; [apply Rabs_pos|apply Rlt_le, Rinv_0_lt_compat; lra|exact M1|].
    apply Rinv_le; lra. }
  assert (A3 : F64 (f64_div (f64_mul (dlit 75 10) (to64 x)) (f64_add (dlit 2377 10) (to64 x))) (R64 (num / den))).
  { apply (div_ok 53 1024 p53 e53); [exact A1|exact A2|lra|]. eapply Rle_lt_trans; [exact M3|apply bp; lia]. }
  destruct (value_of_64 _ _ A3) as (V3 & c & E3 & R3).
  destruct (S _ _ V3 E3) as (b & Vb & Eb & Bb1 & Bb2).
  { unfold lebp in M3. rewrite <- R3, K3 in M3. apply Rabs_le_inv in M3.
    split; apply Rle_Qle; rewrite Q2R_int; lra. }
  pose proof (flt_value_64 _ _ Vb Eb) as Fb. set (pw := pow _ _) in *.
  assert (Bb : bpow radix2 (-37) <= Q2R b <= bpow radix2 37).
  { apply Qle_Rle in Bb1, Bb2. rewrite Q2R_int in Bb2.
    replace (Q2R (1 # 100000000000)) with (/ 100000000000) in Bb1 by (unfold Q2R; cbn; lra).
    assert (K37 : bpow radix2 37 = 137438953472) by reflexivity.
    assert (K37' : bpow radix2 (-37) = / 137438953472) by reflexivity. lra. }
  assert (P37 := bpow_gt_0 radix2 (-37)).
  exists (R64 (l3 * Q2R b)).
  assert (Up : lebp 40 (R64 (l3 * Q2R b))).
  { apply R64_b; [lia|]. unfold lebp. rewrite Rabs_mult, !Rabs_pos_eq by lra.
    change 40%Z with (3 + 37)%Z. rewrite bpow_plus. apply Rmult_le_compat; lra. }
  assert (Lo : bpow radix2 (-37) <= R64 (l3 * Q2R b)).
  { apply R64_low; [lia|]. apply Rle_trans with (1 * Q2R b); [lra|]. apply Rmult_le_compat_r; lra. }
  split.
  - apply (mul_ok 53 1024 p53 e53); [exact L3|exact Fb|]. eapply Rle_lt_trans; [exact Up|apply bp; lia].
  - split; [exact Lo|]. unfold lebp in Up. rewrite Rabs_pos_eq in Up by lra. exact Up.
Qed.
Lemma humidity_ok : forall pow air dew za zd, pow_sane pow ->
  tempValue air = Some za -> tempValue dew = Some zd ->
  (Qabs (degrees_of air za) <= 100 # 1)%Q -> (Qabs (degrees_of dew zd) <= 100 # 1)%Q ->
  exists rh q, Temperature_relativeHumidity pow air dew = Some rh
    /\ valid_binary 24 128 rh = true /\ flt_value rh = Some q
    /\ ((degrees_of air za < degrees_of dew zd)%Q -> (q == 100)%Q).
Proof.
  intros pow air dew za zd S Ea Ed La Ld. rewrite humidity_unfold.
  assert (Ra : forall t z, tempValue t = Some z -> (Qabs (degrees_of t z) <= 100 # 1)%Q ->
    exists v r, Temperature_toUnit t Temp_C = Some v /\ F32 v r /\ Rabs r <= 101
      /\ Rabs (r - Q2R (degrees_of t z)) <= / 100).
  { intros t z E L. assert (Lz : (Z.abs z <= 100000)%Z).
    { unfold degrees_of in L. apply Qabs_Qle_condition in L. unfold Qle in L. cbn [Qnum Qden Qopp] in L.
      destruct (precise t); lia. }
    destruct (temp_F t z E Lz) as (v & r & V & R & D & _). exists v, r. unfold Temperature_toUnit. rewrite V.
    split; [reflexivity|]. split; [exact R|]. split; [|exact D].
    apply Qle_Rle in L. rewrite Q2R_abs, Q2R_int in L.
    pose proof (Rabs_triang (r - Q2R (degrees_of t z)) (Q2R (degrees_of t z))) as T.
    replace (r - Q2R (degrees_of t z) + Q2R (degrees_of t z)) with r in T by lra. lra. }
  destruct (Ra air za Ea La) as (va & ra & Va & Fa & Ba & Da).
  destruct (Ra dew zd Ed Ld) as (vd & rd & Vd & Fd & Bd & Dd).
  rewrite Va, Vd. pose proof (ltb_true va vd ra rd (to64_ok _ _ Fa) (to64_ok _ _ Fd)) as C.
  destruct (flt_ltb va vd).
  { eexists. eexists. split; [reflexivity|]. split; [reflexivity|]. split; [vm_compute; reflexivity|].
    intros _. reflexivity. }
  destruct (svp_ok pow va ra S Fa Ba) as (sa & Sa & La1 & La2).
  destruct (svp_ok pow vd rd S Fd Bd) as (sd & Sd & Ld1 & Ld2).
  assert (P37 := bpow_gt_0 radix2 (-37)).
  assert (F100 : F64 (f64_of_Z 100) 100) by (apply of_Z64_ok; lia).
  assert (K7 : bpow radix2 7 = 128) by reflexivity.
  assert (M1 : lebp 47 (R64 (100 * sd))).
  { apply R64_b; [lia|]. unfold lebp. rewrite Rabs_mult, !Rabs_pos_eq by lra.
    change 47%Z with (7 + 40)%Z. rewrite bpow_plus, K7. apply Rmult_le_compat; lra. }
  assert (A1 : F64 (f64_mul (f64_of_Z 100) (svp pow vd)) (R64 (100 * sd))).
  { apply (mul_ok 53 1024 p53 e53); [exact F100|exact Sd|]. eapply Rle_lt_trans; [exact M1|apply bp; lia]. }
  assert (M2 : lebp 84 (R64 (R64 (100 * sd) / sa))).
  { apply R64_b; [lia|]. unfold lebp, Rdiv in *. rewrite Rabs_mult, Rabs_inv, (Rabs_pos_eq sa) by lra.
    change 84%Z with (47 + 37)%Z. rewrite bpow_plus.
    apply Rmult_le_compat; [apply Rabs_pos|apply Rlt_le, Rinv_0_lt_compat; lra|exact M1|].
    change 37%Z with (- (-37))%Z. rewrite bpow_opp. apply Rinv_le; lra. }
  assert (A2 : F64 (f64_div (f64_mul (f64_of_Z 100) (svp pow vd)) (svp pow va)) (R64 (R64 (100 * sd) / sa))).
  { apply (div_ok 53 1024 p53 e53); [exact A1|exact Sa|lra|]. eapply Rle_lt_trans; [exact M2|apply bp; lia]. }
  assert (M3 : lebp 84 (R32 (R64 (R64 (100 * sd) / sa)))) by (apply R32_b; [lia|exact M2]).
  apply to32_ok in A2; [|eapply Rle_lt_trans; [exact M3|apply bp; lia]].
  destruct (F32_value _ _ A2) as (q & Eq & _). eexists. exists q. split; [reflexivity|].
  split; [apply A2|]. split; [exact Eq|].
  intros H. exfalso.
  assert (~ ra < rd) by (intros K; apply C in K; discriminate). apply H0.
  assert (G : Q2R (degrees_of air za) + / 10 <= Q2R (degrees_of dew zd)).
  { replace (/ 10) with (Q2R (1 # 10)) by (unfold Q2R; cbn; lra). rewrite <- Q2R_plus. apply Qle_Rle.
    unfold degrees_of, Qlt, Qle, Qplus in *. cbn [Qnum Qden] in *. destruct (precise air), (precise dew); cbn [Pos.mul] in *; lia. }
  unfold Rabs in Da, Dd. destruct (Rcase_abs (ra - _)) in Da; destruct (Rcase_abs (rd - _)) in Dd; lra.
Qed.
Lemma humidity_none : forall pow air dew, tempValue air = None \/ tempValue dew = None ->
  Temperature_relativeHumidity pow air dew = None.
Proof.
  intros pow air dew D. rewrite humidity_unfold. unfold Temperature_toUnit, Temperature_temperature.
  destruct D as [-> | ->]; [reflexivity|]. destruct (tempValue air); reflexivity.
Qed.
Lemma heat_index_dew : forall pow air dew za zd, pow_sane pow ->
  tempValue air = Some za -> tempValue dew = Some zd ->
  (Qabs (degrees_of air za) <= 100 # 1)%Q -> (Qabs (degrees_of dew zd) <= 100 # 1)%Q ->
  exists rh q h, Temperature_relativeHumidity pow air dew = Some rh /\ flt_value rh = Some q
    /\ Temperature_heatIndexDP pow air dew = Ok h
    /\ (Temperature_isReported h = true
        <-> (27 # 1 <= degrees_of air za)%Q /\ (40 # 1 <= q <= 100 # 1)%Q).
Proof.
  intros pow air dew za zd S Ea Ed La Ld.
  destruct (humidity_ok pow air dew za zd S Ea Ed La Ld) as (rh & q & E & V & Q & _).
  destruct (heat_index_range air za rh q Ea) as (h & Eh & Rh); [|exact V|exact Q|].
  { eapply Qle_trans; [exact La|]. discriminate. }
  exists rh, q, h. unfold Temperature_heatIndexDP. rewrite E. auto.
Qed.
Lemma heat_index_dew_none : forall pow air dew, tempValue air = None \/ tempValue dew = None ->
  Temperature_heatIndexDP pow air dew = Ok Temperature_default.
Proof. intros pow air dew D. unfold Temperature_heatIndexDP. rewrite (humidity_none pow air dew D). reflexivity. Qed.
