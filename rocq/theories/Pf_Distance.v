(** The distance shown is the great-circle distance (C102). *)
From Coq Require Import String ZArith Reals Bool.
From Verif Require Import Prim Float Summary Page SpecSumNumbers SpecSummary SpecPage SpecStations Pf_Summary Pf_Stations SpecFigures Pf_PageLines Distance SpecDistance.
From Coq Require Import Lra Machin Lia.
Local Open Scope string_scope.
Local Open Scope R_scope.

Lemma pi_bounds : 31415 / 10000 < PI < 31417 / 10000.
Proof.
  pose proof (PI_2_3_7_ineq 2) as [L U]. cbn -[Rmult Rplus Rdiv Rinv pow INR PI] in L, U.
  unfold tg_alt, PI_2_3_7_tg, Ratan_seq in L, U. cbn [pow Nat.mul Nat.add INR] in L, U. lra.
Qed.
Lemma dot : forall lat1 lon1 lat2 lon2,
  sin (PI * lat1 / 180) * sin (PI * lat2 / 180) + cos (PI * lat1 / 180) * cos (PI * lat2 / 180) * cos (PI * (lon1 - lon2) / 180)
  = px (lat1, lon1) * px (lat2, lon2) + py (lat1, lon1) * py (lat2, lon2) + pz (lat1, lon1) * pz (lat2, lon2).
Proof.
  intros. unfold px, py, pz, radians. cbn [fst snd]. replace (PI * (lon1 - lon2) / 180) with (lon1 * PI / 180 - lon2 * PI / 180) by field.
  rewrite cos_minus. replace (PI * lat1 / 180) with (lat1 * PI / 180) by field. replace (PI * lat2 / 180) with (lat2 * PI / 180) by field. ring.
Qed.
Lemma unit_point : forall p, px p * px p + py p * py p + pz p * pz p = 1.
Proof.
  intros p. unfold px, py, pz. pose proof (sin2_cos2 (radians (fst p))) as A. pose proof (sin2_cos2 (radians (snd p))) as B. unfold Rsqr in A, B.
  set (cl := cos (radians (fst p))) in *. set (sl := sin (radians (fst p))) in *. set (c := cos (radians (snd p))) in *. set (s := sin (radians (snd p))) in *.
  replace (cl * c * (cl * c) + cl * s * (cl * s) + sl * sl) with (cl * cl * (s * s + c * c) + sl * sl) by ring. rewrite B. lra.
Qed.
Lemma dot_range : forall p q, -1 <= px p * px q + py p * py q + pz p * pz q <= 1.
Proof.
  intros p q. pose proof (unit_point p) as A. pose proof (unit_point q) as B.
  pose proof (Rle_0_sqr (px p - px q)). pose proof (Rle_0_sqr (py p - py q)). pose proof (Rle_0_sqr (pz p - pz q)).
  pose proof (Rle_0_sqr (px p + px q)). pose proof (Rle_0_sqr (py p + py q)). pose proof (Rle_0_sqr (pz p + pz q)). unfold Rsqr in *. split; nra.
Qed.
Lemma angle_exists : forall p q, exists a, central_angle p q a.
Proof. intros p q. exists (acos (px p * px q + py p * py q + pz p * pz q)). split; [apply acos_bound|]. apply cos_acos, dot_range. Qed.
Lemma angle_unique : forall p q a b, central_angle p q a -> central_angle p q b -> a = b.
Proof. intros p q a b [A E] [B F]. rewrite <- (acos_cos a A), <- (acos_cos b B), E, F. reflexivity. Qed.
Lemma same_angle : forall p a, central_angle p p a -> a = 0.
Proof. intros p a [A E]. rewrite unit_point in E. rewrite <- (acos_cos a A), E. apply acos_1. Qed.

Lemma distance_angle : forall lat1 lon1 lat2 lon2 a, central_angle (lat1, lon1) (lat2, lon2) a ->
  distance_of_numbers lat1 lon1 lat2 lon2 = a * 180 / PI * 60 * (11515 / 10000) * (1609344 / 1000000).
Proof.
  intros lat1 lon1 lat2 lon2 a C. unfold distance_of_numbers.
  assert (K : let dist := sin (PI * lat1 / 180) * sin (PI * lat2 / 180) + cos (PI * lat1 / 180) * cos (PI * lat2 / 180) * cos (PI * (lon1 - lon2) / 180) in
    acos (if js_greater dist 1 then 1 else dist) = a).
  { cbv zeta. rewrite dot. destruct C as [R E]. unfold js_greater. destruct (Rgt_dec _ 1) as [G|G].
    - exfalso. pose proof (dot_range (lat1, lon1) (lat2, lon2)). lra.
    - rewrite <- E. apply acos_cos. exact R. }
  unfold js_equal. destruct (Req_EM_T lat1 lat2) as [->|N]; [destruct (Req_EM_T lon1 lon2) as [->|N]|]; cbn [andb].
  - apply same_angle in C. subst a. unfold Rdiv. ring.
  - cbv zeta in K |- *. rewrite K. reflexivity.
  - cbv zeta in K |- *. rewrite K. reflexivity.
Qed.
Lemma distance_near : forall p lat1 lon1 km, great_circle (lat1, lon1) p km ->
  0 <= distance_of_numbers lat1 lon1 (fst p) (snd p) /\ Rabs (distance_of_numbers lat1 lon1 (fst p) (snd p) - km) <= km / 10000.
Proof.
  intros [lat2 lon2] lat1 lon1 km (a & C & ->). cbn [fst snd]. rewrite (distance_angle _ _ _ _ _ C). destruct C as [[A0 _] _]. pose proof pi_bounds as [L U].
  unfold earth_radius.
  assert (I : 10000 / 31417 <= / PI <= 10000 / 31415).
  { split; [replace (10000 / 31417) with (/ (31417 / 10000)) by lra|replace (10000 / 31415) with (/ (31415 / 10000)) by lra]; apply Rinv_le_contravar; lra. }
  unfold Rdiv at 1 2 3 4. set (i := / PI) in *. split; [nra|].
  apply Rabs_le. split; nra.
Qed.
Lemma Rabs_le_inv : forall x y, Rabs x <= y -> - y <= x <= y.
Proof. intros x y. unfold Rabs. destruct (Rcase_abs x); lra. Qed.
Lemma round_near : forall x, Rabs (IZR (Math_round x) - x) <= / 2.
Proof. intros x. unfold Math_round. pose proof (base_Int_part (x + / 2)) as [A B]. apply Rabs_le. lra. Qed.

Theorem distance_shown : forall number pos lat lon lat1 lon1 km imperial, number lat = Some lat1 -> number lon = Some lon1 ->
  great_circle (lat1, lon1) pos km ->
  exists n whole, signed_whole whole n
    /\ distance_text imperial (station_distance number pos (Some lat) (Some lon)) = whole ++ (if imperial then " miles" else " km")
    /\ Rabs (IZR n * (if imperial then mile else 1) - km) <= / 2 * (if imperial then mile else 1) + km / 10000.
Proof.
  intros number pos lat lon lat1 lon1 km imperial El Eo G. unfold station_distance. rewrite El, Eo. destruct (distance_near pos lat1 lon1 km G) as [P N].
  set (d := distance_of_numbers lat1 lon1 (fst pos) (snd pos)) in *. unfold distance_text, mile. destruct imperial.
  - exists (Math_round (d / (1609344 / 1000000))). eexists. split; [apply int_shown|]. split; [reflexivity|].
    pose proof (round_near (d / (1609344 / 1000000))) as R. set (n := IZR (Math_round (d / (1609344 / 1000000)))) in *.
    apply Rabs_le_inv in N, R. apply Rabs_le. lra.
  - exists (Math_round d). eexists. split; [apply int_shown|]. split; [reflexivity|]. pose proof (round_near d) as R.
    apply Rabs_le_inv in N, R. apply Rabs_le. lra.
Qed.
Lemma position_near : forall pos, Rabs (fst (rounded_position pos) - fst pos) <= / 200 /\ Rabs (snd (rounded_position pos) - snd pos) <= / 200.
Proof.
  intros [x y]. cbn [rounded_position fst snd]. pose proof (round_near (x * 100)) as A. pose proof (round_near (y * 100)) as B.
  apply Rabs_le_inv in A, B. split; apply Rabs_le; lra.
Qed.
Lemma great_circle_exists : forall p q, exists! km, great_circle p q km.
Proof.
  intros p q. destruct (angle_exists p q) as [a C]. exists (earth_radius * a). split; [exists a; split; [exact C|reflexivity]|].
  intros km (b & D & ->). rewrite (angle_unique p q a b C D). reflexivity.
Qed.
Lemma quarter : great_circle (0, 90) (0, 0) (earth_radius * (PI / 2)).
Proof.
  exists (PI / 2). split; [|reflexivity]. pose proof PI_RGT_0. split; [lra|]. rewrite cos_PI2. unfold px, py, pz, radians. cbn [fst snd].
  replace (0 * PI / 180) with 0 by lra. replace (90 * PI / 180) with (PI / 2) by lra. rewrite cos_PI2, sin_0. lra.
Qed.
Lemma quarter_text : forall number, number "0" = Some 0 -> number "90.00" = Some 90 ->
  distance_text false (station_distance number (0, 0) (Some "0") (Some "90.00")) = "10007 km".
Proof.
  intros number E F. unfold station_distance. rewrite E, F. cbn [fst snd]. destruct quarter as (a & C & _). pose proof PI_RGT_0 as P.
  assert (a = PI / 2) as ->.
  { apply (angle_unique _ _ _ _ C). destruct quarter as (b & [B1 B2] & Eb). unfold earth_radius in Eb. assert (b = PI / 2) as -> by lra. split; assumption. }
  rewrite (distance_angle _ _ _ _ _ C). unfold distance_text.
  replace (Math_round (PI / 2 * 180 / PI * 60 * (11515 / 10000) * (1609344 / 1000000))) with 10007%Z; [reflexivity|].
  unfold Math_round. replace (PI / 2 * 180 / PI * 60 * (11515 / 10000) * (1609344 / 1000000)) with (90 * 60 * (11515 / 10000) * (1609344 / 1000000)) by (field; lra).
  match goal with |- _ = Int_part ?r => pose proof (base_Int_part r) as [A B]; set (z := Int_part r) in * end.
  assert (10006 < z)%Z by (apply lt_IZR; lra). assert (z < 10008)%Z by (apply lt_IZR; lra). lia.
Qed.
(** ** An aerodrome without latitude *)
Theorem no_latitude : exists metars,
  forall (pow : flt -> flt -> flt), pow_tame pow ->
  forall number pos clock sgn year month day imperial,
    exists d item, addStationNames (AWCdataToMap (station_distance number pos) metars nil) nil = cons (Some "ZZZZ", d) nil
      /\ displayStations clock pow sgn (distance_text imperial) year month day imperial (cons (Some "ZZZZ", d) nil) = (cons item nil, None)
      /\ contains (element "div" "weatherstation" ("NAME UNKNOWN (NaN " ++ (if imperial then "miles" else "km") ++ " away)")) item.
Proof.
  exists (cons (cons ("station_id", "ZZZZ") (cons ("raw_text", "METAR ZZZZ 010000Z 9999=") nil)) nil).
  intros pow PT number pos clock sgn year month day imperial.
  destruct (summary_returns pow PT sgn "METAR ZZZZ 010000Z 9999=" "" year month day imperial) as [w W].
  pose (d := mkStationData (Some "") None None None (Some "METAR ZZZZ 010000Z 9999=") (Some "") : StationData (option R)).
  destruct (station_shown (option R) clock pow sgn (distance_text imperial) year month day imperial d _ _ w eq_refl eq_refl W) as (item & I & S).
  exists d, item. split; [reflexivity|]. split.
  - cbn [displayStations d sd_metar sd_taf]. rewrite W. cbn [bind]. cbn [d sd_name sd_distKm] in I. cbn [d sd_name sd_distKm]. rewrite I. reflexivity.
  - destruct S as (metar & taf & w' & widget & text & _ & _ & _ & _ & _ & _ & _ & _ & S). specialize (S eq_refl). cbn [d sd_distKm distance_text] in S.
    destruct imperial; exact S.
Qed.
