(** Every conversion between units of the value classes. *)
From Coq Require Import ZArith NArith QArith Qabs Reals Qreals Psatz Lra Bool Lia.
From Verif Require Import Prim Float Values SpecReal SpecUnits.
From Flocq Require Import Core.Zaux Core.Raux Core.Defs Core.Float_prop Core.Generic_fmt Core.FLT Core.FLX
  IEEE754.BinarySingleNaN.
From Verif Require Import Pf_Round Pf_Convert.
Local Open Scope R_scope.

Lemma Q2R_abs : forall q, Q2R (Qabs q) = Rabs (Q2R q).
Proof.
  intros q. destruct (Qlt_le_dec q 0) as [L|L].
  - rewrite (Qeq_eqR _ _ (Qabs_neg q (Qlt_le_weak _ _ L))), Q2R_opp.
    apply Qlt_Rlt in L. rewrite RMicromega.Q2R_0 in L. rewrite Rabs_left by exact L. reflexivity.
  - rewrite (Qeq_eqR _ _ (Qabs_pos q L)). apply Qle_Rle in L. rewrite RMicromega.Q2R_0 in L.
    rewrite Rabs_pos_eq by exact L. reflexivity.
Qed.

Lemma close_R : forall eps x r q, F32 x r -> rel (Q2R eps) r (Q2R q) -> close_to eps x q.
Proof.
  intros eps x r q X H. destruct (F32_value _ _ X) as (v & V & E). exists v. split; [exact V|].
  apply Rle_Qle. rewrite Q2R_mult, !Q2R_abs, Q2R_minus, E. exact H.
Qed.
Lemma not_above_R : forall x y a b, F32 x a -> F32 y b -> a <= b -> not_above x y.
Proof.
  intros x y a b X Y L. destruct (F32_value _ _ X) as (v & V & E). destruct (F32_value _ _ Y) as (w & W & G).
  exists v, w. split; [exact V|]. split; [exact W|]. apply Rle_Qle. rewrite E, G. exact L.
Qed.
Lemma not_above_inv : forall x y, valid_binary 24 128 x = true -> valid_binary 24 128 y = true ->
  not_above x y -> exists a b, F32 x a /\ F32 y b /\ a <= b.
Proof.
  intros x y X Y (a & b & A & B & L). exists (Q2R a), (Q2R b).
  split; [apply value_F32; assumption|]. split; [apply value_F32; assumption|]. apply Qle_Rle. exact L.
Qed.

(** [g] multiplies by about [q], and keeps the order *)
Definition Conv (eps : Q) (g : flt -> flt) (q : Q) : Prop := exists f : R -> R,
  (forall v r, F32 v r -> mid 50 r -> F32 (g v) (f r))
  /\ (forall r, mid 50 r -> rel (Q2R eps) (f r) (r * Q2R q))
  /\ (forall a b, a <= b -> f a <= f b).

Lemma Conv_id : forall eps q, (0 <= eps)%Q -> (q == 1)%Q -> Conv eps (fun v => v) q.
Proof.
  intros eps q Z E. exists (fun r => r). split; [auto|]. split; [|auto].
  intros r _. rewrite (Qeq_eqR _ _ E). replace (r * Q2R 1) with r by (unfold Q2R; cbn; lra).
  apply (rel_up 0); [|apply rel_refl]. apply Qle_Rle in Z. rewrite RMicromega.Q2R_0 in Z. exact Z.
Qed.
Definition near (eps a b : Q) : bool :=
  match Qabs (a - b) ?= eps * Qabs b with Gt => false | _ => true end%Q.
Lemma near_rel : forall eps a b, near eps a b = true -> rel (Q2R eps) (Q2R a) (Q2R b).
Proof.
  intros eps a b N. unfold rel. rewrite <- Q2R_minus, <- !Q2R_abs, <- Q2R_mult. apply Qle_Rle.
  apply Qle_alt. unfold near in N. intros C. rewrite C in N. discriminate.
Qed.
(** the tolerance without the error of rounding *)
Definition tighter (eps : Q) : Q := (eps * (1 - (1 # 20)))%Q.
Lemma Conv_mul : forall eps lit n d q, Lit lit (Q2R (n # d)) ->
  (1 # 100000 <= eps)%Q -> near (tighter eps) (n # d) q = true -> Conv eps (fun v => fmul_d v lit) q.
Proof.
  intros eps lit n d q L E N. destruct (conv_mul _ _ L) as (f & F1 & F2 & F3). exists f.
  split; [exact F1|]. split; [|exact F3]. intros r M. apply near_rel in N.
  apply Qle_Rle in E. replace (Q2R (1 # 100000)) with (/ 100000) in E by (unfold Q2R; cbn; lra).
  assert (T : Q2R (tighter eps) = 19 / 20 * Q2R eps).
  { unfold tighter. rewrite Q2R_mult, Q2R_minus. unfold Q2R at 2 3. cbn. lra. }
  rewrite T in N.
  eapply rel_up; [|eapply rel_trans; [|apply F2; exact M|apply (rel_mul _ _ _ r); exact N]]; lra.
Qed.
Lemma Conv_div : forall eps lit n d q, Lit lit (Q2R (n # d)) ->
  (1 # 100000 <= eps)%Q -> near (tighter eps) (/ (n # d)) q = true ->
  Conv eps (fun v => fdiv_d v lit) q.
Proof.
  intros eps lit n d q L E N. destruct (conv_div _ _ L) as (f & F1 & F2 & F3). exists f.
  split; [exact F1|]. split; [|exact F3]. intros r M. apply near_rel in N.
  destruct L as (P & _).
  rewrite Q2R_inv in N.
  2:{ intros Z. apply Qeq_eqR in Z. rewrite RMicromega.Q2R_0 in Z. lra. }
  apply Qle_Rle in E. replace (Q2R (1 # 100000)) with (/ 100000) in E by (unfold Q2R; cbn; lra).
  assert (T : Q2R (tighter eps) = 19 / 20 * Q2R eps).
  { unfold tighter. rewrite Q2R_mult, Q2R_minus. unfold Q2R at 2 3. cbn. lra. }
  rewrite T in N.
  eapply rel_up; [|eapply rel_trans; [|apply F2; exact M|apply (rel_mul _ _ _ r); exact N]]; lra.
Qed.
Lemma LitQ : forall n d, (0 < n <= 2 ^ 40)%Z -> (Zpos d <= 2 ^ 40)%Z -> Lit (dlit n (Zpos d)) (Q2R (n # d)).
Proof. intros n d N D. apply Lit_d; lia. Qed.
Lemma LitZ : forall n, (0 < n <= 2 ^ 40)%Z -> Lit (f64_of_Z n) (Q2R (n # 1)).
Proof. intros n N. replace (Q2R (n # 1)) with (IZR n) by (unfold Q2R; cbn; lra). apply Lit_z; exact N. Qed.

Definition tol : Q := 1 # 100000.
Ltac conv :=
  match goal with
  | |- Conv _ (fun v => v) _ => apply Conv_id; [discriminate|reflexivity]
  | |- Conv _ (fun v => fmul_d v (dlit ?n (Zpos ?d))) _ =>
    apply (Conv_mul _ _ n d); [apply LitQ; lia|discriminate|vm_compute; reflexivity]
  | |- Conv _ (fun v => fdiv_d v (dlit ?n (Zpos ?d))) _ =>
    apply (Conv_div _ _ n d); [apply LitQ; lia|discriminate|vm_compute; reflexivity]
  | |- Conv _ (fun v => fmul_d v (f64_of_Z ?n)) _ =>
    apply (Conv_mul _ _ n 1); [apply LitZ; lia|discriminate|vm_compute; reflexivity]
  | |- Conv _ (fun v => fdiv_d v (f64_of_Z ?n)) _ =>
    apply (Conv_div _ _ n 1); [apply LitZ; lia|discriminate|vm_compute; reflexivity]
  end.

(** *** Numbers that are stored as integers *)
Lemma of_N_F : forall n, (n < 4294967296)%N ->
  exists r, F32 (f32_of_N n) r /\ mid 40 r /\ rel e32 r (IZR (Z.of_N n)).
Proof.
  intros n L. assert (M : mid 40 (IZR (Z.of_N n))).
  { destruct n as [|p]; [left; reflexivity|right].
    assert (1 <= IZR (Z.of_N (N.pos p))) by (apply IZR_le; lia).
    rewrite Rabs_pos_eq by lra. split.
    - eapply Rle_trans; [|exact H]. change 1 with (bpow radix2 0). apply bple. lia.
    - change (bpow radix2 40) with (IZR (2 ^ 40)). apply IZR_le. lia. }
  exists (R32 (IZR (Z.of_N n))). split; [apply of_Z_ok; lia|]. split; [apply R32_mid; [lia|exact M]|].
  apply R32_rel. apply (mid_up 40); [lia|exact M].
Qed.
Lemma of_N_mono : forall n m, (n <= m)%N -> (m < 4294967296)%N ->
  exists a b, F32 (f32_of_N n) a /\ F32 (f32_of_N m) b /\ a <= b.
Proof.
  intros n m L B. exists (R32 (IZR (Z.of_N n))), (R32 (IZR (Z.of_N m))).
  split; [apply of_Z_ok; lia|]. split; [apply of_Z_ok; lia|]. apply R32_mono. apply IZR_le. lia.
Qed.
Lemma Q2R_parts : forall n, Q2R (parts n 1) = IZR (Z.of_N n).
Proof. intros. unfold parts, Q2R. cbn. lra. Qed.

(** the tolerance grows by the rounding of the stored value *)
Definition tol' : Q := 11 # 1000000.
Lemma conv_int : forall g q n, Conv tol g q -> (n < 4294967296)%N ->
  close_to tol' (g (f32_of_N n)) (parts n 1 * q).
Proof.
  intros g q n (f & F1 & F2 & _) L. destruct (of_N_F n L) as (r & R & M & E).
  assert (M' : mid 50 r) by (apply (mid_up 40); [lia|exact M]).
  apply (close_R _ _ (f r)); [apply F1; assumption|]. rewrite Q2R_mult, Q2R_parts.
  eapply rel_up; [|eapply rel_trans; [|apply F2; exact M'|]].
  3:{ rewrite (Rmult_comm r), (Rmult_comm (IZR _)). apply rel_mul. exact E. }
  - replace (Q2R tol) with (/ 100000) by (unfold tol, Q2R; cbn; lra).
    replace (Q2R tol') with (11 / 1000000) by (unfold tol', Q2R; cbn; lra). rewrite e32_val. lra.
  - replace (Q2R tol) with (/ 100000) by (unfold tol, Q2R; cbn; lra). lra.
Qed.
Lemma conv_int_mono : forall eps g q n m, Conv eps g q -> (n <= m)%N -> (m < 4294967296)%N ->
  not_above (g (f32_of_N n)) (g (f32_of_N m)).
Proof.
  intros eps g q n m (f & F1 & _ & F3) L B.
  destruct (of_N_F n) as (r & R & M & _); [lia|]. destruct (of_N_F m) as (s & S & N & _); [lia|].
  destruct (of_N_mono n m L B) as (a & b & A & Bb & LE).
  pose proof (isF_fun _ _ _ _ _ R A). pose proof (isF_fun _ _ _ _ _ S Bb). subst a b.
  apply (not_above_R _ _ (f r) (f s)).
  - apply F1; [exact R|apply (mid_up 40); [lia|exact M]].
  - apply F1; [exact S|apply (mid_up 40); [lia|exact N]].
  - apply F3. exact LE.
Qed.

(** *** Numbers that are stored as floats *)
Lemma plain_F : forall x, plain_float x -> exists q r, flt_value x = Some q /\ F32 x r /\ mid 50 r /\ Q2R q = r.
Proof.
  intros x (V & q & E & D). exists q, (Q2R q). split; [exact E|]. split; [apply value_F32; assumption|].
  split; [|reflexivity]. destruct D as [D|[D1 D2]].
  - left. rewrite (Qeq_eqR _ _ D). apply RMicromega.Q2R_0.
  - right. apply Qle_Rle in D1, D2. rewrite Q2R_abs in D1, D2.
    replace (Q2R (1 # 1000000000)) with (/ 1000000000) in D1 by (unfold Q2R; cbn; lra).
    replace (Q2R (1000000000 # 1)) with 1000000000 in D2 by (unfold Q2R; cbn; lra).
    change (- (50))%Z with (-50)%Z.
    assert (bpow radix2 (-50) = / 1125899906842624) by reflexivity.
    assert (bpow radix2 50 = 1125899906842624) by reflexivity. lra.
Qed.
Lemma conv_plain : forall eps g q x v, Conv eps g q -> plain_float x -> flt_value x = Some v ->
  close_to eps (g x) (v * q).
Proof.
  intros eps g q x v (f & F1 & F2 & _) P V. destruct (plain_F x P) as (v' & r & V' & R & M & E).
  rewrite V in V'. injection V' as <-.
  apply (close_R _ _ (f r)); [apply F1; assumption|]. rewrite Q2R_mult, E. apply F2. exact M.
Qed.
Lemma conv_plain_mono : forall eps g q x y, Conv eps g q -> plain_float x -> plain_float y ->
  not_above x y -> not_above (g x) (g y).
Proof.
  intros eps g q x y (f & F1 & _ & F3) X Y (a & b & A & B & L).
  destruct (plain_F x X) as (a' & r & V' & R & M & E). rewrite A in V'. injection V' as <-.
  destruct (plain_F y Y) as (b' & s & W' & S & N & G). rewrite B in W'. injection W' as <-.
  apply (not_above_R _ _ (f r) (f s)); try (apply F1; assumption). apply F3. subst. apply Qle_Rle. exact L.
Qed.

Lemma close_eq : forall eps x q q', (q == q')%Q -> close_to eps x q -> close_to eps x q'.
Proof. intros eps x q q' E (v & V & L). exists v. split; [exact V|]. rewrite <- E. exact L. Qed.
Lemma close_converted : forall eps x v a b, close_to eps x (v * (a / b)) -> close_to eps x (converted v a b).
Proof. intros eps x v a b. apply close_eq. unfold converted, Qdiv. apply Qmult_assoc. Qed.

(** *** Speed *)
Definition speed_conv (u0 u : SpeedUnit) : flt -> flt :=
  match u0, u with
  | KNOTS, KNOTS => fun v => v
  | KNOTS, METERS_PER_SECOND => fun v => fmul_d v (dlit 514444 1000000)
  | KNOTS, KILOMETERS_PER_HOUR => fun v => fmul_d v (dlit 1852 1000)
  | KNOTS, MILES_PER_HOUR => fun v => fmul_d v (dlit 1150779 1000000)
  | METERS_PER_SECOND, KNOTS => fun v => fmul_d v (dlit 1943844 1000000)
  | METERS_PER_SECOND, METERS_PER_SECOND => fun v => v
  | METERS_PER_SECOND, KILOMETERS_PER_HOUR => fun v => fmul_d v (dlit 36 10)
  | METERS_PER_SECOND, MILES_PER_HOUR => fun v => fmul_d v (dlit 2236936 1000000)
  | KILOMETERS_PER_HOUR, KNOTS => fun v => fdiv_d v (dlit 1852 1000)
  | KILOMETERS_PER_HOUR, METERS_PER_SECOND => fun v => fdiv_d v (dlit 36 10)
  | KILOMETERS_PER_HOUR, KILOMETERS_PER_HOUR => fun v => v
  | KILOMETERS_PER_HOUR, MILES_PER_HOUR => fun v => fmul_d v (dlit 621371 1000000)
  | MILES_PER_HOUR, KNOTS => fun v => fmul_d v (dlit 868976 1000000)
  | MILES_PER_HOUR, METERS_PER_SECOND => fun v => fmul_d v (dlit 44704 100000)
  | MILES_PER_HOUR, KILOMETERS_PER_HOUR => fun v => fmul_d v (dlit 1609344 1000000)
  | MILES_PER_HOUR, MILES_PER_HOUR => fun v => v
  end.
Lemma speed_conv_ok : forall u0 u,
  (forall n, Speed_toUnit (mkSpeed (Some n) u0) u = Some (speed_conv u0 u (f32_of_N n)))
  /\ Conv tol (speed_conv u0 u) (metres_per_hour_in u0 / metres_per_hour_in u).
Proof.
  intros [] []; (split; [intros n; reflexivity|]);
    unfold speed_conv; conv.
Qed.
Lemma speed_accurate : forall n u0 u, (n < 4294967296)%N -> exists x,
  Speed_toUnit (mkSpeed (Some n) u0) u = Some x
  /\ close_to (11 # 1000000) x (converted (parts n 1) (metres_per_hour_in u0) (metres_per_hour_in u)).
Proof.
  intros n u0 u L. destruct (speed_conv_ok u0 u) as (E & C). eexists. split; [apply E|].
  apply close_converted. apply (conv_int _ _ _ C L).
Qed.
Lemma speed_monotone : forall n m u0 u x y, (n <= m)%N -> (m < 4294967296)%N ->
  Speed_toUnit (mkSpeed (Some n) u0) u = Some x -> Speed_toUnit (mkSpeed (Some m) u0) u = Some y ->
  not_above x y.
Proof.
  intros n m u0 u x y L B X Y. destruct (speed_conv_ok u0 u) as (E & C). rewrite E in X, Y.
  injection X as <-. injection Y as <-. apply (conv_int_mono _ _ _ _ _ C L B).
Qed.

(** *** Distance *)
Definition dist_conv (u0 u : DistUnit) : flt -> flt :=
  match u0, u with
  | METERS, METERS => fun v => v
  | METERS, STATUTE_MILES => fun v => fdiv_d v (dlit 1609347 1000)
  | METERS, FEET => fun v => fdiv_d v (dlit 3048 10000)
  | STATUTE_MILES, METERS => fun v => fmul_d v (dlit 1609347 1000)
  | STATUTE_MILES, STATUTE_MILES => fun v => v
  | STATUTE_MILES, FEET => fun v => fmul_d v (f64_of_Z 5280)
  | FEET, METERS => fun v => fmul_d v (dlit 3048 10000)
  | FEET, STATUTE_MILES => fun v => fdiv_d v (f64_of_Z 5280)
  | FEET, FEET => fun v => v
  end.
Lemma dist_conv_ok : forall u0 u,
  (forall md n, Distance_toUnit (mkDist md (Some n) u0) u
     = Some (dist_conv u0 u (match u0 with
                             | STATUTE_MILES => f32_div (f32_of_N n) (f32_of_N statuteMileFactor)
                             | _ => f32_of_N n end)))
  /\ Conv tol (dist_conv u0 u) (metres_in u0 / metres_in u).
Proof.
  intros [] []; (split; [intros; reflexivity|]); unfold dist_conv; conv.
Qed.
(** the stored value in miles is a whole number of 1/10000 *)
Lemma miles_F : forall n, (n < 4294967296)%N ->
  exists r, F32 (f32_div (f32_of_N n) (f32_of_N statuteMileFactor)) r /\ mid 50 r
    /\ rel (/ 5000000) r (IZR (Z.of_N n) / 10000) /\ r = R32 (R32 (IZR (Z.of_N n)) / 10000).
Proof.
  intros n L. destruct (of_N_F n L) as (r & R & M & E).
  assert (T : F32 (f32_of_N statuteMileFactor) 10000).
  { repeat split. vm_compute. lra. }
  assert (M1 : mid 14 10000).
  { right. rewrite Rabs_pos_eq by lra. change (- (14))%Z with (-14)%Z.
    assert (bpow radix2 (-14) = / 16384) by reflexivity. assert (bpow radix2 14 = 16384) by reflexivity. lra. }
  assert (M2 : mid 54 (r / 10000)) by (apply (mid_mul 40 14); [exact M|apply mid_inv; exact M1]).
  assert (M3 : mid 54 (R32 (r / 10000))) by (apply R32_mid; [lia|exact M2]).
  exists (R32 (r / 10000)).
  assert (ER : r = R32 (IZR (Z.of_N n))).
  { apply (isF_fun 24 128 (f32_of_N n)); [exact R|]. apply of_Z_ok. lia. }
  split; [|split; [|split]].
  - apply (div_ok 24 128 p24 e24 _ _ r 10000 R T); [lra|]. apply (mid_lt32 54); [lia|exact M3].
  - destruct M as [-> |[M _]].
    + left. unfold Rdiv. rewrite Rmult_0_l. apply RN_0.
    + apply (R32_mid 50); [lia|]. destruct n as [|p].
      * left. rewrite ER. replace (IZR (Z.of_N 0)) with 0 by reflexivity. unfold R32. rewrite RN_0. lra.
      * assert (1 <= IZR (Z.of_N (N.pos p)) <= 4294967296) by (split; apply IZR_le; lia).
        pose proof (rel_abs _ _ _ E) as U1. pose proof (rel_abs_low _ _ _ E) as U2.
        rewrite (Rabs_pos_eq (IZR _)) in U1, U2 by lra. rewrite e32_val in U1, U2.
        right. unfold Rdiv. rewrite Rabs_mult, (Rabs_pos_eq (/ 10000)) by lra.
        change (- (50))%Z with (-50)%Z.
        assert (bpow radix2 (-50) = / 1125899906842624) by reflexivity.
        assert (bpow radix2 50 = 1125899906842624) by reflexivity. lra.
  - eapply rel_up; [|eapply rel_trans; [|apply R32_rel; apply (mid_up 54); [lia|exact M2]|]].
    3:{ unfold Rdiv. rewrite (Rmult_comm r), (Rmult_comm (IZR _)). apply rel_mul. exact E. }
    + rewrite e32_val. lra.
    + apply Rlt_le, e32_pos.
  - rewrite ER. reflexivity.
Qed.
Lemma rel_eqR : forall e r a b, a = b -> rel e r a -> rel e r b.
Proof. intros e r a b -> H. exact H. Qed.
Lemma Q2R_converted : forall v a b, Q2R (converted v a b) = Q2R v * Q2R (a / b).
Proof. intros. unfold converted. rewrite <- Q2R_mult. apply Qeq_eqR. unfold Qdiv. rewrite Qmult_assoc. reflexivity. Qed.
Lemma distance_R : forall md n u0 u, (n < 4294967296)%N -> exists x r,
  Distance_toUnit (mkDist md (Some n) u0) u = Some x /\ F32 x r
  /\ rel (11 / 1000000) r (Q2R (converted (stored n u0) (metres_in u0) (metres_in u))).
Proof.
  intros md n u0 u L. destruct (dist_conv_ok u0 u) as (E & C).
  assert (S : exists w s, F32 w s /\ mid 50 s /\ rel (/ 5000000) s (Q2R (stored n u0))
    /\ Distance_toUnit (mkDist md (Some n) u0) u = Some (dist_conv u0 u w)).
  { destruct u0.
    - destruct (of_N_F n L) as (r & R & M & D). exists (f32_of_N n), r. split; [exact R|].
      split; [apply (mid_up 40); [lia|exact M]|]. split; [|apply E]. cbn [stored]. rewrite Q2R_parts.
      apply (rel_up e32); [rewrite e32_val; lra|exact D].
    - destruct (miles_F n L) as (r & R & M & D & _).
      exists (f32_div (f32_of_N n) (f32_of_N statuteMileFactor)), r. split; [exact R|]. split; [exact M|].
      split; [exact D|]. apply E.
    - destruct (of_N_F n L) as (r & R & M & D). exists (f32_of_N n), r. split; [exact R|].
      split; [apply (mid_up 40); [lia|exact M]|]. split; [|apply E]. cbn [stored]. rewrite Q2R_parts.
      apply (rel_up e32); [rewrite e32_val; lra|exact D]. }
  destruct S as (w & s & W & M & D & T). destruct C as (f & F1 & F2 & _).
  exists (dist_conv u0 u w), (f s). split; [exact T|]. split; [apply F1; assumption|].
  rewrite Q2R_converted.
  eapply rel_up; [|eapply rel_trans; [|apply F2; exact M|]].
  3:{ rewrite (Rmult_comm s), (Rmult_comm (Q2R (stored n u0))). apply rel_mul. exact D. }
  - replace (Q2R tol) with (/ 100000) by (unfold tol, Q2R; cbn; lra). lra.
  - replace (Q2R tol) with (/ 100000) by (unfold tol, Q2R; cbn; lra). lra.
Qed.
Lemma distance_accurate : forall md n u0 u, (n < 4294967296)%N -> exists x,
  Distance_toUnit (mkDist md (Some n) u0) u = Some x
  /\ close_to (11 # 1000000) x (converted (stored n u0) (metres_in u0) (metres_in u)).
Proof.
  intros md n u0 u L. destruct (distance_R md n u0 u L) as (x & r & X & R & D). exists x.
  split; [exact X|]. apply (close_R _ _ r _ R).
  replace (Q2R (11 # 1000000)) with (11 / 1000000) by (unfold Q2R; cbn; lra). exact D.
Qed.
Lemma distance_monotone : forall md md' n m u0 u x y, (n <= m)%N -> (m < 4294967296)%N ->
  Distance_toUnit (mkDist md (Some n) u0) u = Some x ->
  Distance_toUnit (mkDist md' (Some m) u0) u = Some y -> not_above x y.
Proof.
  intros md md' n m u0 u x y L B X Y. destruct (dist_conv_ok u0 u) as (E & C). rewrite E in X, Y.
  injection X as <-. injection Y as <-.
  destruct u0; [apply (conv_int_mono _ _ _ _ _ C L B)| |apply (conv_int_mono _ _ _ _ _ C L B)].
  destruct C as (f & F1 & _ & F3).
  destruct (miles_F n) as (r & R & M & _ & Er); [lia|]. destruct (miles_F m) as (s & S & N & _ & Es); [lia|].
  apply (not_above_R _ _ (f r) (f s)); try (apply F1; assumption). apply F3. subst r s.
  apply R32_mono. apply Rmult_le_compat_r; [lra|]. apply R32_mono. apply IZR_le. lia.
Qed.

(** *** Pressure and precipitation *)
Definition press_conv (u0 u : PressureUnit) : flt -> flt :=
  match u0, u with
  | HECTOPASCAL, HECTOPASCAL => fun v => v
  | HECTOPASCAL, INCHES_HG => fun v => fdiv_d v (dlit 338639 10000)
  | HECTOPASCAL, MM_HG => fun v => fdiv_d v (dlit 13332 10000)
  | INCHES_HG, HECTOPASCAL => fun v => fmul_d v (dlit 338639 10000)
  | INCHES_HG, INCHES_HG => fun v => v
  | INCHES_HG, MM_HG => fun v => fmul_d v (dlit 254 10)
  | MM_HG, HECTOPASCAL => fun v => fmul_d v (dlit 13332 10000)
  | MM_HG, INCHES_HG => fun v => fdiv_d v (dlit 254 10)
  | MM_HG, MM_HG => fun v => v
  end.
Lemma press_conv_ok : forall u0 u,
  (forall v, Pressure_toUnit (mkPressure (Some v) u0) u = Some (press_conv u0 u v))
  /\ Conv (1 # 50000) (press_conv u0 u) (pascals_in u0 / pascals_in u).
Proof. intros [] []; (split; [intros; reflexivity|]); unfold press_conv; conv. Qed.
Lemma pressure_accurate : forall v q u0 u, plain_float v -> flt_value v = Some q -> exists x,
  Pressure_toUnit (mkPressure (Some v) u0) u = Some x
  /\ close_to (1 # 50000) x (converted q (pascals_in u0) (pascals_in u)).
Proof.
  intros v q u0 u P V. destruct (press_conv_ok u0 u) as (E & C). eexists. split; [apply E|].
  apply close_converted. apply (conv_plain _ _ _ _ _ C P V).
Qed.
Lemma pressure_monotone : forall v w u0 u x y, plain_float v -> plain_float w -> not_above v w ->
  Pressure_toUnit (mkPressure (Some v) u0) u = Some x ->
  Pressure_toUnit (mkPressure (Some w) u0) u = Some y -> not_above x y.
Proof.
  intros v w u0 u x y P Q L X Y. destruct (press_conv_ok u0 u) as (E & C). rewrite E in X, Y.
  injection X as <-. injection Y as <-. apply (conv_plain_mono _ _ _ _ _ C P Q L).
Qed.
Definition precip_conv (u0 u : PrecipUnit) : flt -> flt :=
  match u0, u with
  | MM, MM => fun v => v
  | MM, INCHES => fun v => fdiv_d v (dlit 254 10)
  | INCHES, MM => fun v => fmul_d v (dlit 254 10)
  | INCHES, INCHES => fun v => v
  end.
Lemma precip_conv_ok : forall u0 u,
  (forall v, Precipitation_toUnit (mkPrecip (Some v) u0) u = Some (precip_conv u0 u v))
  /\ Conv tol (precip_conv u0 u) (millimetres_in u0 / millimetres_in u).
Proof. intros [] []; (split; [intros; reflexivity|]); unfold precip_conv; conv. Qed.
Lemma precipitation_accurate : forall v q u0 u, plain_float v -> flt_value v = Some q -> exists x,
  Precipitation_toUnit (mkPrecip (Some v) u0) u = Some x
  /\ close_to (1 # 100000) x (converted q (millimetres_in u0) (millimetres_in u)).
Proof.
  intros v q u0 u P V. destruct (precip_conv_ok u0 u) as (E & C). eexists. split; [apply E|].
  apply close_converted. apply (conv_plain _ _ _ _ _ C P V).
Qed.
Lemma precipitation_monotone : forall v w u0 u x y, plain_float v -> plain_float w -> not_above v w ->
  Precipitation_toUnit (mkPrecip (Some v) u0) u = Some x ->
  Precipitation_toUnit (mkPrecip (Some w) u0) u = Some y -> not_above x y.
Proof.
  intros v w u0 u x y P Q L X Y. destruct (precip_conv_ok u0 u) as (E & C). rewrite E in X, Y.
  injection X as <-. injection Y as <-. apply (conv_plain_mono _ _ _ _ _ C P Q L).
Qed.

(** *** Wave height, stored in decimetres *)
Lemma wave_F : forall n, (n < 4294967296)%N ->
  exists r, F32 (to32 (f64_mul (f64_of_N n) (dlit 1 10))) r /\ mid 50 r
    /\ rel (/ 4000000) r (IZR (Z.of_N n) / 10)
    /\ r = R32 (R64 (IZR (Z.of_N n) * R64 (1 / 10))).
Proof.
  intros n L. assert (D : F64 (f64_of_N n) (IZR (Z.of_N n))) by (apply of_Z64_ok; lia).
  destruct (dlit_ok 1 10) as (A & B & C & P); [lia|lia|].
  assert (Pn : IZR (Z.of_N n) = 0 \/ 1 <= IZR (Z.of_N n) <= 4294967296).
  { destruct n as [|p]; [left; reflexivity|right; split; apply IZR_le; lia]. }
  set (t := R64 (1 / 10)) in *.
  assert (T : rel e64 t (1 / 10)) by (apply R64_rel; apply (mid_up 40); [lia|exact B]).
  assert (Tb : / 20 <= t <= / 5).
  { unfold rel in T. rewrite (Rabs_pos_eq (1 / 10)) in T by lra. rewrite e64_val in T. unfold Rabs in T.
    destruct (Rcase_abs (t - 1 / 10)); lra. }
  assert (M : mid 50 (IZR (Z.of_N n) * t)).
  { destruct Pn as [-> |Pn]; [left; lra|right]. rewrite Rabs_pos_eq by nra. change (- (50))%Z with (-50)%Z.
    assert (bpow radix2 (-50) = / 1125899906842624) by reflexivity.
    assert (bpow radix2 50 = 1125899906842624) by reflexivity. nra. }
  assert (M1 : mid 50 (R64 (IZR (Z.of_N n) * t))) by (apply R64_mid; [lia|exact M]).
  assert (M2 : mid 50 (R32 (R64 (IZR (Z.of_N n) * t)))) by (apply R32_mid; [lia|exact M1]).
  exists (R32 (R64 (IZR (Z.of_N n) * t))). split; [|split; [exact M2|split; [|reflexivity]]].
  - apply to32_ok; [|apply (mid_lt32 50); [lia|exact M2]].
    apply (mul_ok 53 1024 p53 e53); [exact D|exact A|]. apply (mid_lt64 50); [lia|exact M1].
  - eapply rel_up; [|eapply rel_trans; [|apply R3264_rel; apply (mid_up 50); [lia|exact M]|]].
    3:{ replace (IZR (Z.of_N n) / 10) with (IZR (Z.of_N n) * (1 / 10)) by lra. apply rel_mul. exact T. }
    + rewrite e64_val. lra.
    + lra.
Qed.
Definition wave_conv (u : WhUnit) : flt -> flt :=
  match u with Wh_METERS => fun v => v | Wh_FEET => fun v => fdiv_d v (dlit 3048 10000) end.
Lemma wave_conv_ok : forall u, Conv tol (wave_conv u) (1 / wave_metres_in u).
Proof. intros []; unfold wave_conv; conv. Qed.
Lemma wave_toUnit : forall t n u, WaveHeight_toUnit (mkWh t (Some n)) u
  = Some (wave_conv u (to32 (f64_mul (f64_of_N n) (dlit 1 10)))).
Proof. intros t n []; reflexivity. Qed.
Lemma wave_accurate : forall t n u, (n < 4294967296)%N -> exists x,
  WaveHeight_toUnit (mkWh t (Some n)) u = Some x
  /\ close_to (11 # 1000000) x (converted (parts n 10) 1 (wave_metres_in u)).
Proof.
  intros t n u L. rewrite wave_toUnit. eexists. split; [reflexivity|]. apply close_converted.
  destruct (wave_conv_ok u) as (f & F1 & F2 & _). destruct (wave_F n L) as (r & R & M & D & _).
  apply (close_R _ _ (f r)); [apply F1; assumption|]. rewrite Q2R_mult.
  replace (Q2R (parts n 10)) with (IZR (Z.of_N n) / 10) by reflexivity.
  eapply rel_up; [|eapply rel_trans; [|apply F2; exact M|]].
  3:{ rewrite (Rmult_comm r), (Rmult_comm (IZR _ / _)). apply rel_mul. exact D. }
  - replace (Q2R tol) with (/ 100000) by (unfold tol, Q2R; cbn; lra).
    replace (Q2R (11 # 1000000)) with (11 / 1000000) by (unfold Q2R; cbn; lra). lra.
  - replace (Q2R tol) with (/ 100000) by (unfold tol, Q2R; cbn; lra). lra.
Qed.
Lemma wave_monotone : forall t t' n m u x y, (n <= m)%N -> (m < 4294967296)%N ->
  WaveHeight_toUnit (mkWh t (Some n)) u = Some x -> WaveHeight_toUnit (mkWh t' (Some m)) u = Some y ->
  not_above x y.
Proof.
  intros t t' n m u x y L B X Y. rewrite wave_toUnit in X, Y. injection X as <-. injection Y as <-.
  destruct (wave_conv_ok u) as (f & F1 & _ & F3).
  destruct (wave_F n) as (r & R & M & _ & Er); [lia|]. destruct (wave_F m) as (s & S & N & _ & Es); [lia|].
  apply (not_above_R _ _ (f r) (f s)); try (apply F1; assumption). apply F3. subst r s.
  apply R32_mono, R64_mono. apply Rmult_le_compat_r; [|apply IZR_le; lia].
  destruct (dlit_ok 1 10) as (_ & _ & _ & P); [lia|lia|]. apply Rlt_le. exact P.
Qed.

(** *** Temperature *)
Lemma temp_F : forall t z, tempValue t = Some z -> (Z.abs z <= 100000)%Z -> exists v r,
  Temperature_temperature t = Some v /\ F32 v r /\ Rabs (r - Q2R (degrees_of t z)) <= / 100
  /\ (precise t = false -> r = IZR z)
  /\ exists f : R -> R, (forall a b, a <= b -> f a <= f b) /\ r = f (IZR z)
      /\ f = (if precise t then fun a => R32 (R32 a * R32 (R64 (1 / 10))) else R32).
Proof.
  intros t z E L. unfold Temperature_temperature. rewrite E.
  assert (Lz : Rabs (IZR z) <= 100000) by (rewrite <- abs_IZR; apply IZR_le; exact L).
  assert (X : R32 (IZR z) = IZR z).
  { apply round_generic; [apply valid_rnd_N|]. apply generic_format_FLT.
    exists (Float radix2 z 0); [unfold F2R; cbn; lra| |discriminate].
    cbn [Fnum]. change (Zpower radix2 24) with (2 ^ 24)%Z. lia. }
  assert (Z1 : F32 (f32_of_Z z) (IZR z)) by (rewrite <- X; apply of_Z_ok; lia).
  destruct (precise t) eqn:P.
  - destruct (dlit_ok 1 10) as (A & B & C & P10); [lia|lia|].
    assert (T64 : rel e64 (R64 (1 / 10)) (1 / 10)) by (apply R64_rel; apply (mid_up 40); [lia|exact B]).
    assert (T32 : rel e32 (R32 (R64 (1 / 10))) (R64 (1 / 10))) by (apply R32_rel; apply (mid_up 40); [lia|exact C]).
    set (q := R32 (R64 (1 / 10))) in *.
    assert (Bq : Rabs (q - 1 / 10) <= / 10000000 /\ 0 < q <= 1).
    { assert (W : rel (/ 8000000) q (1 / 10)).
      { eapply rel_up; [|eapply rel_trans; [|exact T32|exact T64]]; [rewrite e32_val, e64_val; lra|apply Rlt_le, e32_pos]. }
      unfold rel in W. rewrite (Rabs_pos_eq (1 / 10)) in W by lra. unfold Rabs in W |- *.
      destruct (Rcase_abs (q - 1 / 10)); lra. }
    assert (Fq : F32 (flit 1 10) q).
    { unfold flit. apply to32_ok; [exact A|]. fold q. apply (mid_lt32 40); [lia|]. apply R32_mid; [lia|exact C]. }
    assert (Bz : lebp 17 (IZR z * q)).
    { unfold lebp. rewrite Rabs_mult, (Rabs_pos_eq q) by lra. assert (bpow radix2 17 = 131072) by reflexivity.
      pose proof (Rabs_pos (IZR z)). nra. }
    exists (f32_mul (f32_of_Z z) (flit 1 10)), (R32 (IZR z * q)).
    assert (S17 : lebp 17 (R32 (IZR z * q))) by (apply R32_b; [lia|exact Bz]).
    split; [reflexivity|]. split; [|split; [|split; [discriminate|]]].
    + apply (mul_ok 24 128 p24 e24 _ _ _ _ Z1 Fq). eapply Rle_lt_trans; [exact S17|apply bp; reflexivity].
    + unfold degrees_of. rewrite P. replace (Q2R (z # 10)) with (IZR z / 10) by reflexivity.
      destruct (Req_dec (IZR z) 0) as [Z0|Z0].
      * rewrite Z0. replace (0 * q) with 0 by lra. unfold R32. rewrite RN_0.
        replace (0 - 0 / 10) with 0 by lra. rewrite Rabs_R0. lra.
      * assert (W : rel e32 (R32 (IZR z * q)) (IZR z * q)).
        { apply R32_rel. right. rewrite Rabs_mult, (Rabs_pos_eq q) by lra.
          assert (1 <= Rabs (IZR z)).
          { rewrite <- abs_IZR. apply IZR_le. assert (z <> 0)%Z by (intros ->; apply Z0; reflexivity). lia. }
          assert (Hq : / 20 <= q).
          { destruct Bq as [Bq _]. unfold Rabs in Bq. destruct (Rcase_abs (q - 1 / 10)); lra. }
          split.
          - eapply Rle_trans; [apply (bple _ (-10)); lia|]. assert (bpow radix2 (-10) = / 1024) by reflexivity. nra.
          - eapply Rle_trans; [|apply (bple 17); lia]. assert (bpow radix2 17 = 131072) by reflexivity. nra. }
        unfold rel in W.
        assert (W2 : Rabs (IZR z * q - IZR z / 10) <= 100000 * / 10000000).
        { replace (IZR z * q - IZR z / 10) with (IZR z * (q - 1 / 10)) by lra. rewrite Rabs_mult.
          apply Rmult_le_compat; try apply Rabs_pos; lra. }
        (* tighter: the error of the factor is below 1.5e-9 *)
        assert (Bq2 : Rabs (q - 1 / 10) <= / 100000000).
        { unfold rel in T32, T64. rewrite (Rabs_pos_eq (1 / 10)) in T64 by lra.
          rewrite (Rabs_pos_eq (R64 _)) in T32 by lra. rewrite e64_val in T64. rewrite e32_val in T32.
          unfold Rabs in *. destruct (Rcase_abs (q - R64 (1 / 10))), (Rcase_abs (R64 (1 / 10) - 1 / 10)),
            (Rcase_abs (q - 1 / 10)); lra. }
        assert (W3 : Rabs (IZR z * q - IZR z / 10) <= 100000 * / 100000000).
        { replace (IZR z * q - IZR z / 10) with (IZR z * (q - 1 / 10)) by lra. rewrite Rabs_mult.
          apply Rmult_le_compat; try apply Rabs_pos; lra. }
        assert (W4 : Rabs (IZR z * q) <= 131072) by exact Bz.
        pose proof (Rabs_triang (R32 (IZR z * q) - IZR z * q) (IZR z * q - IZR z / 10)) as T.
        replace (R32 (IZR z * q) - IZR z * q + (IZR z * q - IZR z / 10)) with (R32 (IZR z * q) - IZR z / 10) in T by lra.
        rewrite e32_val in W. lra.
    + exists (fun a => R32 (R32 a * q)). split; [|split; [rewrite X; reflexivity|reflexivity]].
      intros a b H. apply R32_mono. apply Rmult_le_compat_r; [lra|]. apply R32_mono. exact H.
  - exists (f32_of_Z z), (IZR z). split; [reflexivity|]. split; [exact Z1|]. split; [|split; [reflexivity|]].
    + unfold degrees_of. rewrite P. replace (Q2R (z # 1)) with (IZR z) by (unfold Q2R; cbn; lra).
      replace (IZR z - IZR z) with 0 by lra. rewrite Rabs_R0. lra.
    + exists R32. split; [apply R32_mono|]. split; [symmetry; exact X|reflexivity].
Qed.

Definition fahr (r : R) : R := R32 (R64 (R64 (r * R64 (18 / 10)) + 32)).
Lemma fahr_mono : forall a b, a <= b -> fahr a <= fahr b.
Proof.
  intros a b H. destruct (dlit_ok 18 10) as (_ & _ & _ & P); [lia|lia|].
  apply R32_mono, R64_mono. apply Rplus_le_compat_r. apply R64_mono. apply Rmult_le_compat_r; [|exact H].
  apply Rlt_le. exact P.
Qed.
Lemma abs_err : forall (rnd : R -> R) e r, (forall r, mid 100 r -> rel e (rnd r) r) ->
  mid 100 r -> Rabs (rnd r - r) <= e * Rabs r.
Proof. intros rnd e r H M. apply H. exact M. Qed.
(** absolute error of rounding, without a lower bound on the number *)
Lemma R64_abs : forall r, Rabs r <= 1000000 -> Rabs (R64 r - r) <= / 100000000.
Proof.
  intros r L. destruct (Rle_dec (bpow radix2 (-100)) (Rabs r)) as [G|G].
  - assert (M : mid 100 r).
    { right. split; [exact G|]. eapply Rle_trans; [exact L|]. eapply Rle_trans; [|apply (bple 20); lia].
      assert (bpow radix2 20 = 1048576) by reflexivity. lra. }
    pose proof (R64_rel r M) as W. unfold rel in W. rewrite e64_val in W. lra.
  - assert (B : lebp (-100) r) by (unfold lebp; lra).
    pose proof (R64_b (-100) r ltac:(lia) B) as W. unfold lebp in *.
    assert (bpow radix2 (-100) <= bpow radix2 (-40)) by (apply bple; lia).
    assert (bpow radix2 (-40) = / 1099511627776) by reflexivity.
    pose proof (Rabs_triang (R64 r) (- r)) as T. rewrite Rabs_Ropp in T. unfold Rminus. lra.
Qed.
Lemma R32_abs : forall r, Rabs r <= 1000000 -> Rabs (R32 r - r) <= / 10000000 * Rabs r + / 100000000.
Proof.
  intros r L. destruct (Rle_dec (bpow radix2 (-100)) (Rabs r)) as [G|G].
  - assert (M : mid 100 r).
    { right. split; [exact G|]. eapply Rle_trans; [exact L|]. eapply Rle_trans; [|apply (bple 20); lia].
      assert (bpow radix2 20 = 1048576) by reflexivity. lra. }
    pose proof (R32_rel r M) as W. unfold rel in W. rewrite e32_val in W. pose proof (Rabs_pos r). lra.
  - assert (B : lebp (-100) r) by (unfold lebp; lra).
    pose proof (R32_b (-100) r ltac:(lia) B) as W. unfold lebp in *.
    assert (bpow radix2 (-100) <= bpow radix2 (-40)) by (apply bple; lia).
    assert (bpow radix2 (-40) = / 1099511627776) by reflexivity.
    pose proof (Rabs_triang (R32 r) (- r)) as T. rewrite Rabs_Ropp in T. unfold Rminus. pose proof (Rabs_pos r). lra.
Qed.

Lemma fahr_ok : forall v r, F32 v r -> Rabs r <= 200000 ->
  F32 (to32 (f64_add (f64_mul (to64 v) (dlit 18 10)) (f64_of_Z 32))) (fahr r)
  /\ Rabs (fahr r - (18 / 10 * r + 32)) <= / 10000000 * Rabs (18 / 10 * r + 32) + / 10000000.
Proof.
  intros v r V L. destruct (dlit_ok 18 10) as (A & B & C & P); [lia|lia|].
  assert (T : rel e64 (R64 (18 / 10)) (18 / 10)) by (apply R64_rel; apply (mid_up 40); [lia|exact B]).
  unfold fahr. set (c := R64 (18 / 10)) in *.
  assert (Bc : Rabs (c - 18 / 10) <= / 1000000000000000 /\ 1 <= c <= 2).
  { unfold rel in T. rewrite (Rabs_pos_eq (18 / 10)) in T by lra. rewrite e64_val in T. unfold Rabs in *.
    destruct (Rcase_abs (c - 18 / 10)); lra. }
  destruct Bc as [Bc Bc2].
  assert (M1 : Rabs (r * c) <= 400000).
  { rewrite Rabs_mult, (Rabs_pos_eq c) by lra. pose proof (Rabs_pos r). nra. }
  assert (E0 : Rabs (r * c - 18 / 10 * r) <= / 1000000000).
  { replace (r * c - 18 / 10 * r) with (r * (c - 18 / 10)) by lra. rewrite Rabs_mult.
    pose proof (Rabs_pos r). pose proof (Rabs_pos (c - 18 / 10)). nra. }
  pose proof (R64_abs (r * c) ltac:(lra)) as E1.
  set (m := R64 (r * c)) in *.
  assert (Lm : Rabs m <= 400001).
  { pose proof (Rabs_triang (m - r * c) (r * c)) as U. replace (m - r * c + r * c) with m in U by lra. lra. }
  assert (Ls : Rabs (m + 32) <= 400040).
  { pose proof (Rabs_triang m 32) as U. rewrite (Rabs_pos_eq 32) in U by lra. lra. }
  pose proof (R64_abs (m + 32) ltac:(lra)) as E2.
  set (s := R64 (m + 32)) in *.
  assert (Lt : Rabs s <= 400041).
  { pose proof (Rabs_triang (s - (m + 32)) (m + 32)) as U. replace (s - (m + 32) + (m + 32)) with s in U by lra. lra. }
  pose proof (R32_abs s ltac:(lra)) as E3.
  assert (K : bpow radix2 20 = 1048576) by reflexivity.
  split.
  - assert (Fm : F64 (f64_mul (to64 v) (dlit 18 10)) m).
    { apply (mul_ok 53 1024 p53 e53); [apply to64_ok; exact V|exact A|].
      fold c. change (RN 53 1024 (r * c)) with m. eapply Rle_lt_trans; [|apply (bp 20); reflexivity]. lra. }
    assert (Fs : F64 (f64_add (f64_mul (to64 v) (dlit 18 10)) (f64_of_Z 32)) s).
    { apply (add_ok 53 1024 p53 e53); [exact Fm|apply of_Z64_ok; lia|].
      change (RN 53 1024 (m + 32)) with s. eapply Rle_lt_trans; [|apply (bp 20); reflexivity]. lra. }
    apply to32_ok; [exact Fs|]. eapply Rle_lt_trans; [|apply (bp 20); reflexivity].
    apply (R32_b 20); [lia|]. unfold lebp. lra.
  - pose proof (Rabs_triang (R32 s - s) (s - (m + 32))) as U1.
    replace (R32 s - s + (s - (m + 32))) with (R32 s - (m + 32)) in U1 by lra.
    pose proof (Rabs_triang (R32 s - (m + 32)) (m - r * c)) as U2.
    replace (R32 s - (m + 32) + (m - r * c)) with (R32 s - (r * c + 32)) in U2 by lra.
    pose proof (Rabs_triang (R32 s - (r * c + 32)) (r * c - 18 / 10 * r)) as U3.
    replace (R32 s - (r * c + 32) + (r * c - 18 / 10 * r)) with (R32 s - (18 / 10 * r + 32)) in U3 by lra.
    assert (U4 : Rabs s <= Rabs (18 / 10 * r + 32) + / 10000000).
    { pose proof (Rabs_triang (18 / 10 * r + 32) (s - (18 / 10 * r + 32))) as W.
      replace (18 / 10 * r + 32 + (s - (18 / 10 * r + 32))) with s in W by lra.
      pose proof (Rabs_triang (s - (m + 32)) (m - r * c)) as W2.
      replace (s - (m + 32) + (m - r * c)) with (s - (r * c + 32)) in W2 by lra.
      pose proof (Rabs_triang (s - (r * c + 32)) (r * c - 18 / 10 * r)) as W3.
      replace (s - (r * c + 32) + (r * c - 18 / 10 * r)) with (s - (18 / 10 * r + 32)) in W3 by lra. lra. }
    lra.
Qed.

Lemma within_R : forall eps x r q, F32 x r -> Rabs (r - Q2R q) <= Q2R eps -> within eps x q.
Proof.
  intros eps x r q X H. destruct (F32_value _ _ X) as (v & V & E). exists v. split; [exact V|].
  apply Rle_Qle. rewrite Q2R_abs, Q2R_minus, E. exact H.
Qed.
Lemma temperature_accurate : forall t z u, tempValue t = Some z -> (Z.abs z <= 100000)%Z ->
  exists x, Temperature_toUnit t u = Some x /\ within (1 # 10) x (in_scale u (degrees_of t z)).
Proof.
  intros t z u E L. destruct (temp_F t z E L) as (v & r & V & R & D & _).
  unfold Temperature_toUnit. rewrite V.
  assert (Lq : Rabs (Q2R (degrees_of t z)) <= 100000).
  { unfold degrees_of. destruct (precise t).
    - unfold Q2R. cbn [Qnum Qden]. rewrite Rabs_mult, (Rabs_pos_eq (/ 10)) by lra.
      assert (Rabs (IZR z) <= 100000) by (rewrite <- abs_IZR; apply IZR_le; exact L). lra.
    - unfold Q2R. cbn [Qnum Qden]. rewrite Rabs_mult, (Rabs_pos_eq (/ 1)) by lra.
      assert (Rabs (IZR z) <= 100000) by (rewrite <- abs_IZR; apply IZR_le; exact L). lra. }
  set (q := degrees_of t z) in *. assert (Lr : Rabs r <= 100001).
  { pose proof (Rabs_triang (r - Q2R q) (Q2R q)) as U. replace (r - Q2R q + Q2R q) with r in U by lra. lra. }
  assert (T10 : Q2R (1 # 10) = / 10) by (unfold Q2R; cbn; lra).
  destruct u.
  - exists v. split; [reflexivity|]. apply (within_R _ _ r); [exact R|]. cbn [in_scale]. lra.
  - destruct (fahr_ok v r R ltac:(lra)) as (F & B). eexists. split; [reflexivity|].
    apply (within_R _ _ (fahr r)); [exact F|]. cbn [in_scale]. rewrite Q2R_plus, Q2R_mult.
    replace (Q2R (9 # 5)) with (18 / 10) by (unfold Q2R; cbn; lra). replace (Q2R 32) with 32 by (unfold Q2R; cbn; lra).
    rewrite T10. pose proof (Rabs_triang (fahr r - (18 / 10 * r + 32)) (18 / 10 * (r - Q2R q))) as U.
    replace (fahr r - (18 / 10 * r + 32) + 18 / 10 * (r - Q2R q)) with (fahr r - (Q2R q * (18 / 10) + 32)) in U by lra.
    rewrite (Rabs_mult (18 / 10)), (Rabs_pos_eq (18 / 10)) in U by lra.
    pose proof (Rabs_triang (18 / 10 * r) 32) as W. rewrite (Rabs_mult (18 / 10)), (Rabs_pos_eq (18 / 10)), (Rabs_pos_eq 32) in W by lra.
    lra.
Qed.
Lemma temperature_monotone : forall t t' z z' u x y, precise t = precise t' ->
  tempValue t = Some z -> tempValue t' = Some z' -> (Z.abs z <= 100000)%Z -> (Z.abs z' <= 100000)%Z ->
  (z <= z')%Z -> Temperature_toUnit t u = Some x -> Temperature_toUnit t' u = Some y -> not_above x y.
Proof.
  intros t t' z z' u x y P E E' L L' Le X Y.
  destruct (temp_F t z E L) as (v & r & V & R & D & _ & f & Fm & Er & Ef).
  destruct (temp_F t' z' E' L') as (v' & r' & V' & R' & D' & _ & f' & Fm' & Er' & Ef').
  unfold Temperature_toUnit in X, Y. rewrite V in X. rewrite V' in Y.
  assert (LE : r <= r').
  { rewrite Er, Er'. rewrite Ef, Ef', P in *. apply Fm'. apply IZR_le. exact Le. }
  assert (Bd : forall t z r, (Z.abs z <= 100000)%Z -> Rabs (r - Q2R (degrees_of t z)) <= / 100 -> Rabs r <= 200000).
  { intros s w k Lw Dw. assert (Rabs (Q2R (degrees_of s w)) <= 100000).
    { unfold degrees_of. assert (Rabs (IZR w) <= 100000) by (rewrite <- abs_IZR; apply IZR_le; exact Lw).
      destruct (precise s); unfold Q2R; cbn [Qnum Qden]; rewrite Rabs_mult;
        [rewrite (Rabs_pos_eq (/ 10)) by lra|rewrite (Rabs_pos_eq (/ 1)) by lra]; lra. }
    pose proof (Rabs_triang (k - Q2R (degrees_of s w)) (Q2R (degrees_of s w))) as U.
    replace (k - Q2R (degrees_of s w) + Q2R (degrees_of s w)) with k in U by lra. lra. }
  destruct u; injection X as <-; injection Y as <-.
  - apply (not_above_R _ _ r r'); assumption.
  - apply (not_above_R _ _ (fahr r) (fahr r')).
    + apply fahr_ok; [exact R|]. apply (Bd t z); assumption.
    + apply fahr_ok; [exact R'|]. apply (Bd t' z'); assumption.
    + apply fahr_mono. exact LE.
Qed.
