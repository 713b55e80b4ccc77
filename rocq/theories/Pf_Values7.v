(** The numbers the floating-point results of the value parsers stand for, checked for every number the
    parsers can meet. *)
From Coq Require Import QArith Qabs.
From Verif Require Import Prim Lib Regex Float Values SpecNumeral Pf_Numeral Pf_Values1 Pf_Values2 Pf_Values5 SpecReal.
From Coq Require Import Lia ZifyBool ZifyN ZifyNat.

Definition withinb (eps : Q) (x : flt) (q : Q) : bool :=
  match flt_value x with Some v => Qle_bool (Qabs (v - q)) eps | None => false end.
Lemma withinb_within : forall eps x q, withinb eps x q = true -> within eps x q.
Proof.
  intros eps x q H; unfold withinb in H; destruct (flt_value x) as [v|] eqn:E; [|discriminate H].
  exists v; split; [exact E|]; apply Qle_bool_iff; exact H.
Qed.
Definition exactb (x : flt) (q : Q) : bool := match flt_value x with Some v => Qeq_bool v q | None => false end.
Lemma exactb_exact : forall x q, exactb x q = true -> is_exactly x q.
Proof.
  intros x q H; unfold exactb in H; destruct (flt_value x) as [v|] eqn:E; [|discriminate H].
  exists v; split; [exact E|]; apply Qeq_bool_iff; exact H.
Qed.
(** All numbers below a bound, in a way that is quick to check *)
Fixpoint all_below (k : nat) (base : N) (P : N -> bool) : bool :=
  match k with
  | O => P base
  | S j => (all_below j (2 * base) P && all_below j (2 * base + 1) P)%bool
  end.
Lemma all_below_spec : forall k base P v, all_below k base P = true -> (base * 2 ^ N.of_nat k <= v < (base + 1) * 2 ^ N.of_nat k)%N -> P v = true.
Proof.
  induction k as [|k IH]; intros base P v H B; cbn [all_below] in H.
  - cbn in B; replace v with base by lia; exact H.
  - apply andb_prop in H; destruct H as [H1 H2]; rewrite Nat2N.inj_succ, N.pow_succ_r' in B.
    destruct (N.lt_ge_cases v ((2 * base + 1) * 2 ^ N.of_nat k)) as [L|L]; [eapply IH; [exact H1|] | eapply IH; [exact H2|]]; nia.
Qed.
Lemma below : forall k P v, all_below k 0 P = true -> (v < 2 ^ N.of_nat k)%N -> P v = true.
Proof. intros k P v H B; eapply all_below_spec; [exact H|]; lia. Qed.

Lemma whole_exact : forall v, (v < 16384)%N -> is_exactly (f32_of_N v) (parts v 1).
Proof.
  intros v B; apply exactb_exact.
  apply (below 14 (fun v => exactb (f32_of_N v) (parts v 1))); [vm_compute; reflexivity | exact B].
Qed.
Lemma hundredths_close : forall v, (v < 10000)%N -> within (1 # 100000) (f32_mul (f32_of_N v) inHgDecimalPointShift) (parts v 100).
Proof.
  intros v B; apply withinb_within.
  assert (C : forall v, (v < 16384)%N -> (negb (v <? 10000)%N || withinb (1 # 100000) (f32_mul (f32_of_N v) inHgDecimalPointShift) (parts v 100))%bool = true).
  { intros u L; apply (below 14 (fun v => (negb (v <? 10000)%N || withinb (1 # 100000) (f32_mul (f32_of_N v) inHgDecimalPointShift) (parts v 100))%bool)); [vm_compute; reflexivity | exact L]. }
  specialize (C v ltac:(lia)); replace (v <? 10000)%N with true in C by lia; exact C.
Qed.
Lemma tenths_close : forall v, (v < 16384)%N -> within (1 # 10000) (f32_mul (f32_of_N v) (flit 1 10)) (parts v 10).
Proof.
  intros v B; apply withinb_within.
  apply (below 14 (fun v => withinb (1 # 10000) (f32_mul (f32_of_N v) (flit 1 10)) (parts v 10))); [vm_compute; reflexivity | exact B].
Qed.
Lemma tendency_close : forall v, (v < 1024)%N -> within (1 # 100000) (f32_mul (f32_of_N v) tendencyDecimalPointShift) (parts v 10).
Proof.
  intros v B; apply withinb_within.
  apply (below 10 (fun v => withinb (1 # 100000) (f32_mul (f32_of_N v) tendencyDecimalPointShift) (parts v 10))); [vm_compute; reflexivity | exact B].
Qed.
Lemma ones_exact : forall v, (v < 16384)%N -> is_exactly (f32_mul (f32_of_N v) (f32_of_Z 1)) (parts v 1).
Proof.
  intros v B; apply exactb_exact.
  apply (below 14 (fun v => exactb (f32_mul (f32_of_N v) (f32_of_Z 1)) (parts v 1))); [vm_compute; reflexivity | exact B].
Qed.
Definition slp_value (v : N) : flt := to32 (f64_add (f64_mul (f64_of_N v) (dlit 1 10)) (f64_of_Z (if (v <? 500)%N then 1000 else 900)%Z)).
Lemma slp_close : forall v, (v < 1024)%N -> within (1 # 10000) (slp_value v) (parts v 10 + (if (v <? 500)%N then 1000 # 1 else 900 # 1))%Q.
Proof.
  intros v B; apply withinb_within.
  apply (below 10 (fun v => withinb (1 # 10000) (slp_value v) (parts v 10 + (if (v <? 500)%N then 1000 # 1 else 900 # 1))%Q)); [vm_compute; reflexivity | exact B].
Qed.
Definition rain_value (a b : N) : flt := to32 (f64_add (f64_of_N a) (f64_mul (dlit 1 10) (f64_of_N b))).
Lemma rain_close : forall a b, (a < 1024)%N -> (b < 16)%N -> within (1 # 10000) (rain_value a b) (parts (10 * a + b) 10).
Proof.
  intros a b A B; apply withinb_within.
  assert (C : all_below 10 0 (fun a => all_below 4 0 (fun b => withinb (1 # 10000) (rain_value a b) (parts (10 * a + b) 10))) = true) by (vm_compute; reflexivity).
  apply (fun H => below 10 _ a H A) in C; apply (fun H => below 4 _ b H B) in C; exact C.
Qed.
Lemma friction_close : forall v t, (v < 128)%N -> t = Sf_SURFACE_FRICTION_REPORTED \/ t = Sf_BRAKING_ACTION_REPORTED ->
  exists x, SurfaceFriction_coefficient (mkSf t v) = Some x /\ within (1 # 1000000) x (parts v 100).
Proof.
  intros v t B T; exists (to32 (f64_mul (f64_of_N v) (dlit 1 100))); split; [destruct T as [->| ->]; reflexivity|].
  apply withinb_within, (below 7 (fun v => withinb (1 # 1000000) (to32 (f64_mul (f64_of_N v) (dlit 1 100))) (parts v 100))); [vm_compute; reflexivity | exact B].
Qed.
Lemma wave_close : forall v t, (v < 1024)%N ->
  exists x, WaveHeight_waveHeight (mkWh t (Some v)) = Some x /\ within (1 # 100000) x (parts v 10).
Proof.
  intros v t B; eexists; split; [reflexivity|].
  apply withinb_within, (below 10 (fun v => withinb (1 # 100000) (to32 (f64_mul (f64_of_N v) (dlit 1 10))) (parts v 10))); [vm_compute; reflexivity | exact B].
Qed.
(** Temperatures *)
Definition signed (neg : bool) (v : N) : Z := (if neg then - Z.of_N v else Z.of_N v)%Z.
Lemma signed_below : forall k (P : Z -> bool) v neg, all_below k 0 (fun v => P (Z.of_N v) && P (- Z.of_N v)%Z)%bool = true -> (v < 2 ^ N.of_nat k)%N -> P (signed neg v) = true.
Proof. intros k P v neg H B; apply (fun H => below k _ v H B) in H; apply andb_prop in H; destruct H, neg; assumption. Qed.
Lemma degrees_exact : forall neg v fr, (v < 128)%N ->
  exists x, Temperature_temperature (mkTemp (Some (signed neg v)) fr false) = Some x /\ is_exactly x (signed neg v # 1).
Proof.
  intros neg v fr B; eexists; split; [reflexivity|]; cbn [precise].
  apply exactb_exact, (signed_below 7 (fun z => exactb (f32_of_Z z) (z # 1))); [vm_compute; reflexivity | exact B].
Qed.
Lemma degree_tenths_close : forall neg v fr, (v < 1024)%N ->
  exists x, Temperature_temperature (mkTemp (Some (signed neg v)) fr true) = Some x /\ within (1 # 100000) x (signed neg v # 10).
Proof.
  intros neg v fr B; eexists; split; [reflexivity|]; cbn [precise].
  apply withinb_within, (signed_below 10 (fun z => withinb (1 # 100000) (f32_mul (f32_of_Z z) (flit 1 10)) (z # 10))); [vm_compute; reflexivity | exact B].
Qed.
Lemma fahrenheit_degrees : forall neg v fr, (v < 128)%N ->
  exists x, Temperature_toUnit (mkTemp (Some (signed neg v)) fr false) Temp_F = Some x /\ within (1 # 10000) x ((signed neg v # 1) * (9 # 5) + 32).
Proof.
  intros neg v fr B; eexists; split; [reflexivity|]; cbn [precise].
  apply withinb_within, (signed_below 7 (fun z => withinb (1 # 10000) (to32 (f64_add (f64_mul (to64 (f32_of_Z z)) (dlit 18 10)) (f64_of_Z 32))) ((z # 1) * (9 # 5) + 32)%Q)); [vm_compute; reflexivity | exact B].
Qed.
Lemma fahrenheit_tenths : forall neg v fr, (v < 1024)%N ->
  exists x, Temperature_toUnit (mkTemp (Some (signed neg v)) fr true) Temp_F = Some x /\ within (1 # 10000) x ((signed neg v # 10) * (9 # 5) + 32).
Proof.
  intros neg v fr B; eexists; split; [reflexivity|]; cbn [precise].
  apply withinb_within, (signed_below 10 (fun z => withinb (1 # 10000) (to32 (f64_add (f64_mul (to64 (f32_mul (f32_of_Z z) (flit 1 10))) (dlit 18 10)) (f64_of_Z 32))) ((z # 10) * (9 # 5) + 32)%Q)); [vm_compute; reflexivity | exact B].
Qed.
