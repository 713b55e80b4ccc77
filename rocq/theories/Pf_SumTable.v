(** Tables: the speeds and temperatures a report can give, without their fraction. *)
From Coq Require Import ZArith NArith QArith Qabs Lia List Bool.
Import ListNotations.
From Verif Require Import Prim Float Values SpecNumeral SpecReal SpecUnits SpecSumNumbers Summary.
From Verif Require Import Pf_Parsed Pf_Bounded.

Definition eqr (r : res Z) (z : Z) : bool := match r with Ok a => Z.eqb a z | Bad _ => false end.
Lemma eqr_ok : forall r z, eqr r z = true -> r = Ok z.
Proof. intros [a|e] z H; [|discriminate]. apply Z.eqb_eq in H. subst; reflexivity. Qed.
Definition shows (o : option flt) (q : Q) : bool := match o with Some x => eqr (trunc_to_int x) (whole_part q) | None => false end.
Lemma shows_ok : forall o q, shows o q = true -> exists x, o = Some x /\ trunc_to_int x = Ok (whole_part q).
Proof. intros [x|] q H; [|discriminate]. exists x. split; [reflexivity|]. apply eqr_ok. exact H. Qed.

Definition upto (k : nat) : list N := map N.of_nat (seq 0 k).
Lemma upto_in : forall k n, (n < N.of_nat k)%N -> In n (upto k).
Proof. intros k n L. apply in_map_iff. exists (N.to_nat n). split; [lia|]. apply in_seq. lia. Qed.
Definition around (k : nat) : list Z := map (fun i => Z.of_nat i - Z.of_nat k)%Z (seq 0 (2 * k + 1)).
Lemma around_in : forall k z, (Z.abs z <= Z.of_nat k)%Z -> In z (around k).
Proof. intros k z L. apply in_map_iff. exists (Z.to_nat (z + Z.of_nat k)). split; [lia|]. apply in_seq. lia. Qed.

Lemma speed_table : forallb (fun n => forallb (fun u0 => forallb (fun u =>
  shows (Speed_toUnit (mkSpeed (Some n) u0) u) (converted (parts n 1) (metres_per_hour_in u0) (metres_per_hour_in u)))
  [MILES_PER_HOUR; KILOMETERS_PER_HOUR]) [KNOTS; METERS_PER_SECOND; KILOMETERS_PER_HOUR; MILES_PER_HOUR]) (upto 1000) = true.
Proof. vm_compute. reflexivity. Qed.
Lemma speed_shown : forall n u0 imperial, (n < 1000)%N -> exists x, Speed_toUnit (mkSpeed (Some n) u0) (sum_speedUnit imperial) = Some x
  /\ trunc_to_int x = Ok (whole_part (converted (parts n 1) (metres_per_hour_in u0) (metres_per_hour_in (sum_speedUnit imperial)))).
Proof.
  intros n u0 imperial L. apply shows_ok. pose proof speed_table as T. rewrite forallb_forall in T. specialize (T n (upto_in 1000 n L)).
  rewrite forallb_forall in T. specialize (T u0 ltac:(destruct u0; cbn; auto)). rewrite forallb_forall in T. apply T. destruct imperial; cbn; auto.
Qed.
Lemma temp_table : forallb (fun z => forallb (fun u =>
    shows (Temperature_toUnit (mkTemp (Some z) true true) u) (in_scale u (z # 10))
    && (negb (Z.abs z <=? 100)%Z || shows (Temperature_toUnit (mkTemp (Some z) true false) u) (in_scale u (z # 1))))
  [Temp_C; Temp_F]) (around 1000) = true.
Proof. vm_compute. reflexivity. Qed.
Lemma temp_shown : forall t z u, temp_read t -> tempValue t = Some z -> exists x, Temperature_toUnit t u = Some x
  /\ trunc_to_int x = Ok (whole_part (in_scale u (degrees_of t z))).
Proof.
  intros t z u [-> |(s & H)] E; [discriminate E|]. apply shows_ok.
  assert (L : (Z.abs z <= if precise t then 1000 else 100)%Z).
  { destruct (parsed_temperature s t H) as [N|(z' & E' & Q)]; [congruence|]. rewrite E in E'. injection E' as <-.
    unfold degrees_of in Q. unfold Qle, Qabs in Q. cbn [Qnum Qden] in Q. destruct (precise t); lia. }
  pose proof temp_table as T. rewrite forallb_forall in T. specialize (T z (around_in 1000 z ltac:(destruct (precise t); lia))).
  rewrite forallb_forall in T. specialize (T u ltac:(destruct u; cbn; auto)).
  destruct t as [tv fr pr]. cbn [tempValue precise] in *. subst tv.
  apply andb_true_iff in T. destruct T as [T1 T2]. destruct pr; [exact T1|].
  destruct (Z.leb_spec (Z.abs z) 100); [exact T2|lia].
Qed.
