(** Properties of single values: dates, report times, directions, and the exact values of floats. *)
From Coq Require Import QArith Qabs.
From Verif Require Import Prim Lib Regex Float Values SpecRegex SpecForm SpecDecimal Pf_Decimal SpecNumeral Pf_Numeral Pf_Values1 Pf_Values2 SpecMiles Pf_Values5 SpecReal SpecDirection SpecDate.
From Coq Require Import Lia ZifyBool ZifyN ZifyNat.
Local Open Scope string_scope.
Local Open Scope N_scope.

(** ** Dates *)
Lemma u32_dec_pos : forall x, 0 < x < 4294967296 -> u32_dec x = x - 1.
Proof.
  intros x H; unfold u32_dec, u32, two32; replace (x + 4294967295) with (x - 1 + 1 * 4294967296) by lia.
  rewrite N.mod_add by lia; apply N.mod_small; lia.
Qed.
Lemma date_before : forall t ref day, dayValue t = Some day -> month_ok ref -> 0 < date_year ref < 4294967296 ->
  let r := MetafTime_dateBeforeRef t ref in
  date_day r = day /\ month_ok r /\ date_le r ref
  /\ (forall x, date_day x = day -> month_ok x -> date_le x ref -> date_le x r).
Proof.
  intros [dv h m] [y mo d] day E M Y; cbn in E; subst dv; unfold MetafTime_dateBeforeRef, month_ok, date_le in *; cbn [dayValue date_day date_month date_year] in *.
  destruct (N.ltb_spec d day) as [L|L]; [destruct (N.eqb_spec mo 1) as [->|Z]|].
  - rewrite u32_dec_pos by lia; cbn [date_day date_month date_year]; repeat split; try lia; intros [y' m' d'] ; cbn; lia.
  - rewrite u32_dec_pos by lia; cbn [date_day date_month date_year]; repeat split; try lia; intros [y' m' d']; cbn; lia.
  - cbn [date_day date_month date_year]; repeat split; try lia; intros [y' m' d']; cbn; lia.
Qed.

(** ** Report times *)
Definition all_hours : list N := map N.of_nat (seq 0 24).
Lemma hour_cases : forall (P : N -> bool) h, h < 24 -> forallb P all_hours = true -> P h = true.
Proof.
  intros P h L H; rewrite forallb_forall in H; apply H; unfold all_hours; apply in_map_iff; exists (N.to_nat h); split; [lia|]; apply in_seq; lia.
Qed.
Lemma time_valid : forall t, MetafTime_isValid t = true
  <-> (dayValue t = None \/ exists d, dayValue t = Some d /\ 1 <= d <= 31) /\ hourValue t <= 24 /\ minuteValue t <= 59.
Proof.
  intros [[d|] h m]; unfold MetafTime_isValid; cbn [dayValue hourValue minuteValue]; split.
  - intros H; destruct ((31 <? d) || (d =? 0)) eqn:A; [discriminate H|]; destruct (24 <? h) eqn:B; [discriminate H|]; destruct (59 <? m) eqn:C; [discriminate H|].
    split; [right; exists d; split; [reflexivity|lia]|lia].
  - intros ([H|(d' & E & B)] & Hh & Hm); [discriminate H|]; injection E as ->.
    replace ((31 <? d') || (d' =? 0)) with false by lia; replace (24 <? h) with false by lia; replace (59 <? m) with false by lia; reflexivity.
  - intros H; destruct ((31 <? 31) || (31 =? 0)) eqn:A; [discriminate H|]; destruct (24 <? h) eqn:B; [discriminate H|]; destruct (59 <? m) eqn:C; [discriminate H|].
    split; [auto|lia].
  - intros (_ & Hh & Hm); change ((31 <? 31) || (31 =? 0)) with false; replace (24 <? h) with false by lia; replace (59 <? m) with false by lia; reflexivity.
Qed.
Lemma hourly3 : forall t, hourValue t < 24 -> minuteValue t < 60 ->
  (MetafTime_is3hourlyReportTime t = true <-> exists c, In c [180; 540; 900; 1260] /\ c <= minutes t + 60 < c + 120).
Proof.
  intros [d h m] Hh Hm; unfold MetafTime_is3hourlyReportTime, minutes; cbn [hourValue minuteValue existsb] in *; split.
  - intros H; rewrite Bool.orb_false_r, !Bool.orb_true_iff, !N.eqb_eq in H.
    repeat destruct H as [H|H]; subst h; cbn [In];
      first [exists 180; solve [split; [auto|lia]] | exists 540; solve [split; [auto|lia]] | exists 900; solve [split; [auto|lia]] | exists 1260; solve [split; [auto 6|lia]]].
  - intros (c & I & L); rewrite Bool.orb_false_r, !Bool.orb_true_iff, !N.eqb_eq; cbn [In] in I; lia.
Qed.
Lemma hourly6 : forall t, hourValue t < 24 -> minuteValue t < 60 ->
  (MetafTime_is6hourlyReportTime t = true <-> exists c, In c [0; 360; 720; 1080; 1440] /\ c <= minutes t + 60 < c + 120).
Proof.
  intros [d h m] Hh Hm; unfold MetafTime_is6hourlyReportTime, minutes; cbn [hourValue minuteValue existsb] in *; split.
  - intros H; rewrite Bool.orb_false_r, !Bool.orb_true_iff, !N.eqb_eq in H.
    repeat destruct H as [H|H]; subst h; cbn [In];
      first [exists 0; solve [split; [auto|lia]] | exists 360; solve [split; [auto|lia]] | exists 720; solve [split; [auto|lia]]
            | exists 1080; solve [split; [auto 6|lia]] | exists 1440; solve [split; [auto 7|lia]]].
  - intros (c & I & L); rewrite Bool.orb_false_r, !Bool.orb_true_iff, !N.eqb_eq; cbn [In] in I; lia.
Qed.
Lemma hourly_exclusive : forall t, MetafTime_is3hourlyReportTime t && MetafTime_is6hourlyReportTime t = false.
Proof.
  intros [d h m]; unfold MetafTime_is3hourlyReportTime, MetafTime_is6hourlyReportTime; cbn [hourValue existsb]; lia.
Qed.

(** ** Directions *)
Definition cardinal_checks (g : N) : bool :=
  forallb (fun o => Bool.eqb (Cardinal_beq (Direction_cardinal (mkDir g DT_VALUE_DEGREES) false) (fst o)) (2 * angle g (snd o) <? 45)) octants.
Lemma below_360 : forall (P : N -> bool) g, g <= 360 -> forallb P (map N.of_nat (seq 0 361)) = true -> P g = true.
Proof.
  intros P g L H; rewrite forallb_forall in H; apply H, in_map_iff; exists (N.to_nat g); split; [lia|]; apply in_seq; lia.
Qed.
Lemma cardinal_octant : forall d o, Direction_isValue d = true -> dirDegrees d <= 360 -> In o octants ->
  (Direction_cardinal d false = fst o <-> 2 * angle (dirDegrees d) (snd o) < 45).
Proof.
  intros [g ty] o V L I; unfold Direction_isValue in V; cbn [dirType dirDegrees] in *.
  assert (T : Direction_cardinal (mkDir g ty) false = Direction_cardinal (mkDir g DT_VALUE_DEGREES) false) by (destruct ty; try discriminate V; reflexivity).
  rewrite T.
  pose proof (below_360 cardinal_checks g L ltac:(vm_compute; reflexivity)) as C; unfold cardinal_checks in C; rewrite forallb_forall in C; specialize (C o I).
  apply Bool.eqb_prop in C; split.
  - intros H; apply N.ltb_lt; rewrite <- C; apply internal_Cardinal_dec_lb; exact H.
  - intros H; apply internal_Cardinal_dec_bl; rewrite C; apply N.ltb_lt; exact H.
Qed.
Lemma cardinal_too_far : forall d b, Direction_isValue d = true -> 360 < dirDegrees d -> Direction_cardinal d b = Cd_NOT_REPORTED.
Proof.
  intros [g ty] b V L; unfold Direction_isValue, Direction_cardinal in *; cbn [dirType dirDegrees] in *.
  change (45 / 2) with 22.
  repeat match goal with |- context [g =? ?k] => replace (g =? k) with false by lia end.
  repeat match goal with |- context [g <=? ?k] => replace (g <=? k) with false by lia end.
  rewrite !Bool.andb_false_r; destruct ty; try discriminate V; reflexivity.
Qed.
Lemma cardinal_true : forall d, Direction_isValue d = true ->
  Direction_cardinal d true =
    (if dirDegrees d =? 360 then Cd_TRUE_N else if dirDegrees d =? 90 then Cd_TRUE_E else if dirDegrees d =? 180 then Cd_TRUE_S
     else if dirDegrees d =? 270 then Cd_TRUE_W else Direction_cardinal d false).
Proof.
  intros [g ty] V; unfold Direction_isValue, Direction_cardinal in *; cbn [dirType dirDegrees andb] in *.
  destruct (N.eqb_spec g 360); [destruct ty; try discriminate V; reflexivity|].
  destruct (N.eqb_spec g 180) as [->|]; [destruct ty; try discriminate V; reflexivity|].
  destruct (N.eqb_spec g 270) as [->|]; [destruct ty; try discriminate V; reflexivity|].
  destruct (N.eqb_spec g 90) as [->|]; destruct ty; try discriminate V; reflexivity.
Qed.

(** ** Sectors *)
Definition same_dirs (a b : list Direction) : bool :=
  Nat.eqb (length a) (length b) && forallb (fun p => N.eqb (dirDegrees (fst p)) (dirDegrees (snd p)) && DirType_beq (dirType (fst p)) (dirType (snd p))) (combine a b).
Lemma same_dirs_eq : forall a b, same_dirs a b = true -> a = b.
Proof.
  unfold same_dirs; induction a as [|[g t] a IH]; intros [|[g' t'] b] H; try reflexivity; try discriminate H.
  cbn [length Nat.eqb combine forallb fst snd dirDegrees dirType] in H.
  apply andb_prop in H; destruct H as [L H]; apply andb_prop in H; destruct H as [P H]; apply andb_prop in P; destruct P as [G T].
  apply N.eqb_eq in G; apply internal_DirType_dec_bl in T; subst; f_equal; apply IH; rewrite L, H; reflexivity.
Qed.
Definition sector_ok (i j : nat) : bool :=
  match sector_loop 16 (fst (octant i)) (fst (octant j)) with
  | Ok l => same_dirs l (map (fun o => mkDir (snd o) DT_VALUE_CARDINAL) (clockwise i j))
  | Bad _ => false
  end.
Lemma sectors : forall i j a b, (i < 8)%nat -> (j < 8)%nat ->
  Direction_cardinal a false = fst (octant i) -> Direction_cardinal b false = fst (octant j) ->
  Direction_sectorCardinalDirToVector a b = Ok (map (fun o => mkDir (snd o) DT_VALUE_CARDINAL) (clockwise i j)).
Proof.
  intros i j a b Hi Hj A B; unfold Direction_sectorCardinalDirToVector, sectorCardinalDirToVector_fuel; rewrite A, B.
  assert (Ne : forall k, (k < 8)%nat -> not_sector_end (fst (octant k)) = false).
  { intros k Hk; do 8 (destruct k as [|k]; [reflexivity|]); lia. }
  rewrite (Ne i Hi), (Ne j Hj); cbn [orb].
  assert (C : sector_ok i j = true).
  { assert (C : forallb (fun i => forallb (sector_ok i) (seq 0 8)) (seq 0 8) = true) by (vm_compute; reflexivity).
    rewrite forallb_forall in C; specialize (C i); rewrite forallb_forall in C; apply C; apply in_seq; lia. }
  unfold sector_ok in C; destruct (sector_loop 16 (fst (octant i)) (fst (octant j))) as [l|]; [|discriminate C].
  f_equal; apply same_dirs_eq; exact C.
Qed.
Lemma clockwise_shape : forall i j, (i < 8)%nat -> (j < 8)%nat ->
  NoDup (clockwise i j) /\ (length (clockwise i j) <= 8)%nat
  /\ hd (Cd_N, 0) (clockwise i j) = octant i /\ last (clockwise i j) (Cd_N, 0) = octant j.
Proof.
  intros i j Hi Hj; do 8 (destruct i as [|i]; [do 8 (destruct j as [|j]; [
    split; [vm_compute; repeat constructor; cbn; intuition discriminate | split; [vm_compute; auto 12 with arith | split; reflexivity]] |]); lia |]); lia.
Qed.
Lemma sector_no_octant : forall a b, Direction_isValid a = true -> 
  let ca := Direction_cardinal a false in let cb := Direction_cardinal b false in
  (not_sector_end ca || not_sector_end cb = true) ->
  exists l, Direction_sectorCardinalDirToVector a b = Ok l /\ (length l <= 2)%nat.
Proof.
  intros a b _ ca cb H; unfold Direction_sectorCardinalDirToVector, sectorCardinalDirToVector_fuel.
  fold ca cb; rewrite H; eexists; split; [reflexivity|].
  destruct (Cardinal_beq ca Cd_NOT_REPORTED), (Cardinal_beq cb Cd_NOT_REPORTED); cbn; lia.
Qed.
(** The loop never reaches its end when it starts from, or looks for, the unknown direction. *)
Lemma loop_from_lost : forall fuel to, (to = Cd_UNKNOWN \/ In to (map fst octants)) -> sector_loop fuel Cd_NOT_REPORTED to = Bad Fuel.
Proof.
  induction fuel as [|fuel IH]; intros to H.
  - destruct H as [->|H]; [reflexivity|]; cbn [map octants fst In] in H; repeat (destruct H as [<-|H]; [reflexivity|]); destruct H.
  - cbn [sector_loop]; replace (Cardinal_beq Cd_NOT_REPORTED to) with false.
    + cbn [Direction_rotateOctantClockwise]; rewrite IH by exact H; reflexivity.
    + destruct H as [->|H]; [reflexivity|]; cbn [map octants fst In] in H; repeat (destruct H as [<-|H]; [reflexivity|]); destruct H.
Qed.
Lemma loop_from_unknown : forall fuel to, In to (map fst octants) -> sector_loop fuel Cd_UNKNOWN to = Bad Fuel.
Proof.
  intros fuel to H; destruct fuel as [|fuel].
  - cbn [map octants fst In] in H; repeat (destruct H as [<-|H]; [reflexivity|]); destruct H.
  - cbn [sector_loop]; replace (Cardinal_beq Cd_UNKNOWN to) with false.
    + cbn [Direction_rotateOctantClockwise]; rewrite loop_from_lost by auto; reflexivity.
    + cbn [map octants fst In] in H; repeat (destruct H as [<-|H]; [reflexivity|]); destruct H.
Qed.
Lemma loop_to_unknown : forall fuel from, In from (map fst octants) -> sector_loop fuel from Cd_UNKNOWN = Bad Fuel.
Proof.
  induction fuel as [|fuel IH]; intros from H.
  - cbn [map octants fst In] in H; repeat (destruct H as [<-|H]; [reflexivity|]); destruct H.
  - cbn [sector_loop]; replace (Cardinal_beq from Cd_UNKNOWN) with false.
    + rewrite IH; [reflexivity|]; cbn [map octants fst In] in H |- *.
      repeat (destruct H as [<-|H]; [cbn; auto 12|]); destruct H.
    + cbn [map octants fst In] in H; repeat (destruct H as [<-|H]; [reflexivity|]); destruct H.
Qed.
