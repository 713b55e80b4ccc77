(** Names of directions; sectors with an unknown end; sums of miles (C26, C28, C29) *)
From Verif Require Import Prim Lib Regex Float Values SpecDirection SpecDate SpecNumeral Pf_Numeral SpecMiles Pf_Values3 Pf_Values4 Pf_Values6.
From Coq Require Import Lia ZifyBool ZifyN ZifyNat.
Local Open Scope string_scope.
Local Open Scope N_scope.

Lemma cardinal_names : forall s over unknown d, Direction_fromCardinalString s over unknown = Some d ->
  (exists o, In (s, o) octant_names /\ Direction_cardinal d false = fst o /\ Direction_degrees d = Some (snd o))
  \/ (s = "NDV" /\ Direction_cardinal d false = Cd_NDV /\ Direction_degrees d = None)
  \/ (s = "OHD" /\ over = true /\ Direction_cardinal d false = Cd_OHD /\ Direction_degrees d = None)
  \/ (s = "ALQDS" /\ over = true /\ Direction_cardinal d false = Cd_ALQDS /\ Direction_degrees d = None)
  \/ (s = "UNKNOWN" /\ unknown = true /\ Direction_cardinal d false = Cd_UNKNOWN /\ Direction_degrees d = None).
Proof.
  intros s over unknown d H; unfold Direction_fromCardinalString in H.
  destruct (sempty s); [discriminate H|].
  destruct (seqb s "NDV") eqn:E1; [apply seqb_eq in E1; injection H as <-; auto|].
  destruct over; cbn [andb] in H;
    repeat match type of H with (if seqb s ?t then Some _ else _) = _ => let E := fresh in destruct (seqb s t) eqn:E; [apply seqb_eq in E; injection H as <-; subst s; auto 8|] end;
    destruct unknown; cbn [andb] in H;
    repeat match type of H with (if seqb s ?t then Some _ else _) = _ => let E := fresh in destruct (seqb s t) eqn:E; [apply seqb_eq in E; injection H as <-; subst s; auto 8|] end;
    left;
    repeat match type of H with context [seqb s ?t] => let E := fresh in destruct (seqb s t) eqn:E;
      [apply seqb_eq in E; subst s; cbn in H; injection H as <-; eexists; split; [unfold octant_names; cbn [In]; auto 12 | split; reflexivity]|] end;
    discriminate H.
Qed.
Lemma names_accepted : forall s o over unknown, In (s, o) octant_names -> exists d, Direction_fromCardinalString s over unknown = Some d.
Proof.
  intros s o over unknown I; unfold octant_names in I; cbn [In] in I.
  repeat match type of I with _ \/ _ => destruct I as [I|I]; [injection I as <- <-; destruct over, unknown; eexists; reflexivity|] end; contradiction.
Qed.
Lemma sector_unknown : forall fuel a b, (Direction_cardinal a false = Cd_UNKNOWN /\ In (Direction_cardinal b false) (map fst octants)
    \/ Direction_cardinal b false = Cd_UNKNOWN /\ In (Direction_cardinal a false) (map fst octants)) ->
  sectorCardinalDirToVector_fuel fuel a b = Bad Fuel.
Proof.
  assert (Ne : forall c, In c (map fst octants) -> not_sector_end c = false).
  { intros c I; cbn in I; repeat (destruct I as [<-|I]; [reflexivity|]); contradiction. }
  intros fuel a b [[A B]|[B A]]; unfold sectorCardinalDirToVector_fuel.
  - rewrite A, (Ne _ B); cbn [not_sector_end orb]; apply loop_from_unknown; exact B.
  - rewrite B, (Ne _ A); cbn [not_sector_end orb]; apply loop_to_unknown; exact A.
Qed.
Lemma mile_bound : forall s r d k, Distance_fromMileString s r = Ok (Some d) -> dist d = Some k -> k <= 990000.
Proof.
  assert (Mv : forall body w n q, MileText body w n q -> w * q + n <= 99 * q /\ 0 < q).
  { intros body w n q T; inversion T as [s' v N1|t1 t2 m e N1 N2 Pm Pe X|t0 t1 t2 w' m e N0 N1 N2 Pm Pe X]; subst.
    - apply short_bound in N1; lia.
    - apply short_bound in N1; destruct X as [X|X]; [lia|]; apply numeral_bound in X; cbn in X; lia.
    - apply numeral_bound in N0, N1; cbn in N0, N1; nia. }
  intros s r d k H E; apply mile_parse in H; destruct H as [(_ & _ & ->)|(p & m & body & w & n & q & k' & _ & _ & T & -> & B)]; [discriminate E|].
  cbn in E; injection E as ->; apply Mv in T; nia.
Qed.
Lemma miles_sum : forall s1 r1 s2 r2 i f d,
  Distance_fromMileString s1 r1 = Ok (Some i) -> Distance_fromMileString s2 r2 = Ok (Some f) ->
  Distance_fromIntegerAndFraction i f = Ok (Some d) ->
  exists a b, dist i = Some a /\ dist f = Some b /\ a mod 10000 = 0 /\ b mod 10000 <> 0
    /\ distModifier f = DM_NONE
    /\ distModifier d = distModifier i /\ distUnit d = STATUTE_MILES /\ dist d = Some (a + b).
Proof.
  intros s1 r1 s2 r2 i f d Hi Hf H; apply whole_and_fraction in H; destruct H as (m & a & b & -> & -> & _ & _ & A & B & ->).
  pose proof (mile_bound _ _ _ a Hi eq_refl); pose proof (mile_bound _ _ _ b Hf eq_refl).
  exists a, b; cbn [dist distModifier distUnit]; repeat (split; [reflexivity || assumption|]).
  unfold u32, two32; rewrite N.mod_small by lia; reflexivity.
Qed.
Lemma miles_decode : forall s (remark : bool) d,
  Distance_fromMileString s remark = Ok (Some d)
  <-> remark = false /\ s = "////SM" /\ d = mkDist DM_NONE None STATUTE_MILES
   \/ exists prefix body w n q k modifier,
        s = prefix ++ body ++ (if remark then "" else "SM")
        /\ In (prefix, modifier) [("", DM_NONE); ("M", DM_LESS_THAN); ("P", DM_MORE_THAN)]
        /\ MileText body w n q
        /\ d = mkDist modifier (Some k) STATUTE_MILES
        /\ k * q <= 10000 * (w * q + n) < (k + 1) * q.
Proof.
  intros s remark d; rewrite mile_parse; unfold mile_prefix; split.
  - intros [H|(p & m & body & w & n & q & k & E & P & T & D & B)]; [auto|]; right; exists p, body, w, n, q, k, m; split; [exact E|]; split; [|auto].
    cbn [In]; destruct P as [[-> ->]|[[-> ->]|[-> ->]]]; auto.
  - intros [H|(p & body & w & n & q & k & m & E & P & T & D & B)]; [auto|]; right; exists p, m, body, w, n, q, k; split; [exact E|]; split; [|auto].
    cbn [In] in P; destruct P as [P|[P|[P|[]]]]; injection P as <- <-; auto.
Qed.
Lemma sum_possible : forall i f m a b, i = mkDist m (Some a) STATUTE_MILES -> f = mkDist DM_NONE (Some b) STATUTE_MILES ->
  (m = DM_NONE \/ m = DM_LESS_THAN \/ m = DM_MORE_THAN) -> a mod 10000 = 0 -> b mod 10000 <> 0 ->
  accepted (Distance_fromIntegerAndFraction i f).
Proof.
  intros i f m a b -> -> M A B; eexists; apply whole_and_fraction; exists m, a, b; repeat (split; [reflexivity|]).
  split; [destruct M as [->|[->| ->]]; discriminate|]; split; [destruct M as [->|[->| ->]]; discriminate|]; auto.
Qed.
Lemma date_no_day : forall t ref, dayValue t = None -> MetafTime_dateBeforeRef t ref = ref.
Proof. intros t ref E; unfold MetafTime_dateBeforeRef; rewrite E; reflexivity. Qed.
Lemma hourly_not_both : forall t, ~ (MetafTime_is3hourlyReportTime t = true /\ MetafTime_is6hourlyReportTime t = true).
Proof. intros t [A B]; pose proof (hourly_exclusive t) as H; rewrite A, B in H; discriminate H. Qed.
Lemma midnight_24 : MetafTime_isValid (mkTime (Some 1) 24 0) = true /\ minutes (mkTime (Some 1) 24 0) = 1440 /\ MetafTime_is6hourlyReportTime (mkTime (Some 1) 24 0) = false.
Proof. repeat split; vm_compute; reflexivity. Qed.
