(** Which groups of a result are valid. *)
From Coq Require Import NArith ZArith List String Bool Lia.
From Coq Require Import ZifyBool ZifyNat ZifyN.
From Verif Require Import Prim Regex Float Values Weather Groups1 Groups2 Groups3 Groups4 Parser Lib Pf_Ok SpecReach SpecText SpecBuilt SpecNumeral SpecMiles SpecTexts
  SpecTrend SpecWind SpecVisibility SpecMinMax SpecReadings SpecAppend SpecValid Pf_Trend Pf_Values6 Pf_Numeral Pf_Refuse Pf_RunwayRange Pf_Visibility Pf_Order Pf_MileOrder.
From Verif Require Pf_WindWords Pf_Temperatures Pf_MinMax Pf_Built.
Import ListNotations.
Local Open Scope string_scope.
Local Open Scope N_scope.

(** ** Values *)
Lemma time_proper : forall t, MetafTime_isValid t = true <-> proper_time t.
Proof.
  intros t. rewrite time_valid. unfold proper_time, if_any. split; intros [D R]; (split; [|exact R]).
  - intros d E. destruct D as [D|(d' & D & B)]; [congruence|]. rewrite D in E. injection E as <-. exact B.
  - destruct (dayValue t) as [d|]; [right; exists d; auto|left; reflexivity].
Qed.
Lemma runway_proper : forall r, Runway_isValid r = true <-> proper_runway r.
Proof.
  intros [n d]. unfold Runway_isValid, Runway_isAllRunways, Runway_isMessageRepetition, proper_runway. cbn [rNumber rDesignator].
  rewrite !orb_true_iff, !andb_true_iff, N.leb_le, !N.eqb_eq. destruct d; cbn; intuition congruence.
Qed.
Lemma direction_proper : forall d, Direction_isValid d = true <-> proper_direction d.
Proof.
  intros d. unfold Direction_isValid, proper_direction, if_any, Direction_degrees. destruct (Direction_isValue d); cbn [negb andb].
  - destruct (N.ltb_spec 360 (dirDegrees d)); split; try reflexivity; try discriminate; intros K; try (intros x [= <-]; assumption).
    specialize (K _ eq_refl). lia.
  - split; [intros _ x; discriminate|reflexivity].
Qed.
Lemma any_iff : forall (A : Type) (P : A -> Prop) (f : A -> bool) o, (forall a, f a = true <-> P a) ->
  (match o with Some a => f a | None => true end = true <-> if_any P o).
Proof.
  intros A P f [a|] H; unfold if_any.
  - rewrite H. split; [intros K x [= <-]; exact K|intros K; apply K; reflexivity].
  - split; [intros _ x; discriminate|reflexivity].
Qed.
Lemma default_iff : forall (A : Type) (P : A -> Prop) (f : A -> bool) o d, (forall a, f a = true <-> P a) -> f d = true ->
  (f (opt_default o d) = true <-> if_any P o).
Proof.
  intros A P f o d H D. rewrite <- (any_iff A P f o H). destruct o; cbn [opt_default]; [reflexivity|]. rewrite D. reflexivity.
Qed.

(** ** Weather *)
Lemma freezing_loop : forall n w i, wp_fz_loop n i w = Ok true <-> exists j x, (i <= j < i + n)%nat /\ (forall k, (i <= k < j)%nat -> nth_error w k <> None)
   /\ nth_error w j = Some x /\ In x [W_DRIZZLE; W_RAIN; W_UNDETERMINED; W_FOG].
Proof.
  induction n as [|n IH]; intros w i; cbn [wp_fz_loop].
  - split; [discriminate|]. intros (j & x & B & _). lia.
  - destruct (nth_error w i) as [x|] eqn:E; cbn [deref bind].
    + assert (D : In x [W_DRIZZLE; W_RAIN; W_UNDETERMINED; W_FOG] \/ ~ In x [W_DRIZZLE; W_RAIN; W_UNDETERMINED; W_FOG]).
      { destruct x; cbn; try (right; intuition discriminate); left; auto. }
      destruct D as [D|D].
      * split; [|intros _; cbn in D; destruct D as [<-|[<-|[<-|[<-|[]]]]]; reflexivity].
        intros _. exists i, x. repeat split; try lia; try assumption.
      * assert (Q : match x with W_DRIZZLE | W_RAIN | W_UNDETERMINED | W_FOG => Ok true | _ => wp_fz_loop n (S i) w end = wp_fz_loop n (S i) w).
        { destruct x; try reflexivity; exfalso; apply D; cbn; auto. }
        rewrite Q, IH. split; intros (j & y & B & K & F & G).
        { exists j, y. repeat split; try lia; try assumption. intros k Hk. destruct (Nat.eq_dec k i) as [->|Ne]; [congruence|apply K; lia]. }
        { exists j, y. destruct (Nat.eq_dec j i) as [->|Ne]; [rewrite E in F; injection F as ->; contradiction|].
          repeat split; try lia; try assumption. intros k Hk. apply K. lia. }
    + split; [discriminate|]. intros (j & x & B & K & F & _). destruct (Nat.eq_dec j i) as [->|Ne]; [congruence|]. specialize (K i ltac:(lia)). congruence.
Qed.
Lemma weather_short : forall p, (List.length (Wp_weather p) <= 3)%nat.
Proof.
  intros p. unfold Wp_weather. destruct (0 <? bits (wpData p) 22 3), (1 <? bits (wpData p) 22 3), (2 <? bits (wpData p) 22 3); cbn; lia.
Qed.
Lemma freezing_proper : forall p, wp_fz_loop 3 0 (Wp_weather p) = Ok true
  <-> exists w, In w (Wp_weather p) /\ In w [W_DRIZZLE; W_RAIN; W_UNDETERMINED; W_FOG].
Proof.
  intros p. rewrite freezing_loop. split.
  - intros (j & x & _ & _ & F & G). exists x. split; [eapply nth_error_In; exact F|exact G].
  - intros (x & F & G). apply In_nth_error in F as (j & F). exists j, x.
    assert (L : (j < List.length (Wp_weather p))%nat) by (apply nth_error_Some; congruence). pose proof (weather_short p) as W3.
    repeat split; try lia; try assumption. intros k K. apply nth_error_Some. lia.
Qed.
Lemma phenomenon_proper : forall p, Wp_isValid p = Ok true <-> proper_phenomenon p.
Proof.
  intros p. unfold Wp_isValid, proper_phenomenon. cbv zeta.
  assert (E : WpQualifier_beq (Wp_qualifier p) Q_NONE && WpDescriptor_beq (Wp_descriptor p) D_NONE && Nat.eqb (List.length (Wp_weather p)) 0 = false
     <-> (Wp_qualifier p <> Q_NONE \/ Wp_descriptor p <> D_NONE \/ Wp_weather p <> [])).
  { rewrite !andb_false_iff. split.
    - intros [[K|K]|K]; [left|right; left|right; right]; intros Z; rewrite Z in K; discriminate K.
    - intros [K|[K|K]].
      + left. left. destruct (WpQualifier_beq (Wp_qualifier p) Q_NONE) eqn:Z; [|reflexivity]. apply internal_WpQualifier_dec_bl in Z. contradiction.
      + left. right. destruct (WpDescriptor_beq (Wp_descriptor p) D_NONE) eqn:Z; [|reflexivity]. apply internal_WpDescriptor_dec_bl in Z. contradiction.
      + right. destruct (Wp_weather p); [contradiction|reflexivity]. }
  assert (T : match wpTm p with Some t => negb (MetafTime_isValid t) | None => false end = false <-> if_any proper_time (wpTm p)).
  { rewrite <- (any_iff _ _ _ (wpTm p) time_proper). destruct (wpTm p); [|split; reflexivity]. destruct (MetafTime_isValid m); split; auto; discriminate. }
  destruct (_ && _ && _) eqn:A; [split; [discriminate|intros (K & _); apply E in K; discriminate]|].
  apply proj1 in E. specialize (E eq_refl).
  destruct (match wpTm p with Some t => negb (MetafTime_isValid t) | None => false end) eqn:B; [split; [discriminate|intros (_ & K & _); apply T in K; discriminate]|].
  apply proj1 in T. specialize (T eq_refl).
  destruct (WpDescriptor_beq (Wp_descriptor p) D_FREEZING) eqn:D.
  - apply internal_WpDescriptor_dec_bl in D.
    assert (X : (let! ok := wp_fz_loop 3 0 (Wp_weather p) in Ok ok) = wp_fz_loop 3 0 (Wp_weather p)) by (destruct (wp_fz_loop 3 0 (Wp_weather p)); reflexivity).
    rewrite X, freezing_proper. split; [intros K; auto|intros (_ & _ & K); exact (K D)].
  - split; [|reflexivity]. intros _. split; [exact E|]. split; [exact T|]. intros Z. rewrite Z in D. discriminate D.
Qed.
Lemma all_proper : forall l, Weather_allValid l = Ok true <-> Forall proper_phenomenon l.
Proof.
  induction l as [|p l IH]; cbn [Weather_allValid].
  - split; [constructor|reflexivity].
  - split.
    + intros H. destruct (Wp_isValid p) as [[|]|] eqn:E; cbn [bind] in H; try discriminate H. constructor; [apply phenomenon_proper; exact E|apply IH; exact H].
    + intros H. inversion H as [|? ? P L]; subst. apply phenomenon_proper in P. rewrite P. cbn [bind]. apply IH. exact L.
Qed.

(** ** Temperatures *)
Definition degree (precise : bool) (x : Z) : flt := if precise then f32_mul (f32_of_Z x) (flit 1 10) else f32_of_Z x.
Lemma degree_order : forall p x y, (-1000 <= x <= 1000)%Z -> (-1000 <= y <= 1000)%Z -> flt_ltb (degree p x) (degree p y) = (x <? y)%Z.
Proof.
  intros [|] x y X Y; [apply (climbs_ltb tenths _ _ tenths_climbs)|apply (climbs_ltb whole _ _ whole_climbs)]; lia.
Qed.
Definition thousands : list Z := map (fun n => Z.of_nat n - 1000)%Z (seq 0 2001).
Lemma in_thousands : forall x, (-1000 <= x <= 1000)%Z -> In x thousands.
Proof. intros x B. apply in_map_iff. exists (Z.to_nat (x + 1000)). split; [lia|]. apply in_seq. lia. Qed.
Definition plain (x : flt) : bool := match x with S754_nan => false | _ => true end.
Lemma degree_zeros : forall p, forallb (fun x => Bool.eqb (flt_is_zero (degree p x)) (Z.eqb x 0) && plain (to64 (degree p x))) thousands = true.
Proof. intros [|]; vm_compute; reflexivity. Qed.
Lemma degree_zero : forall p x, (-1000 <= x <= 1000)%Z -> flt_is_zero (degree p x) = (x =? 0)%Z /\ plain (to64 (degree p x)) = true.
Proof.
  intros p x X. pose proof (degree_zeros p) as H. rewrite forallb_forall in H. specialize (H x (in_thousands x X)). apply andb_true_iff in H as [A B].
  apply Bool.eqb_prop in A. auto.
Qed.
Lemma plain_compare : forall x y, plain x = true -> plain y = true -> SFcompare x y <> None.
Proof. intros [] [] A B; try discriminate A; try discriminate B; cbn; discriminate. Qed.
Lemma degree_leb : forall p x y, (-1000 <= x <= 1000)%Z -> (-1000 <= y <= 1000)%Z -> flt_leb (degree p x) (degree p y) = (x <=? y)%Z.
Proof.
  intros p x y X Y. unfold flt_leb. rewrite leb_ltb by (apply plain_compare; apply degree_zero; assumption).
  change (SFltb (to64 (degree p y)) (to64 (degree p x))) with (flt_ltb (degree p y) (degree p x)). rewrite degree_order by assumption.
  destruct (Z.ltb_spec y x), (Z.leb_spec x y); try reflexivity; lia.
Qed.
Definition scaled (p : bool) (x : Z) : Z := if p then x else (10 * x)%Z.
(** A temperature of the text: nothing, or a value of so many degrees or tenths *)
Definition Told (p : bool) (t : Temperature) : Prop :=
  t = no_temperature \/ exists x, tempValue t = Some x /\ precise t = p /\ (-999 <= scaled p x <= 999)%Z /\ (freezing t = true -> x <= 0)%Z /\ (freezing t = false -> 0 <= x)%Z.
Lemma whole_told : forall s t, whole_degrees s t -> Told false t.
Proof. intros s t H. right. destruct (Pf_MinMax.whole_value _ _ H) as (x & V & P & B & F & G). exists x. unfold scaled. repeat split; auto; lia. Qed.
Lemma tenths_told : forall s t, tenths_of_degree s t -> Told true t.
Proof.
  intros s t (m & d & v & -> & N & ->). right. pose proof (numeral_bound _ _ _ N) as B. cbn in B. eexists. split; [reflexivity|]. split; [reflexivity|]. cbn [freezing]. unfold scaled.
  destruct m; cbn [andb]; [|repeat split; try discriminate; lia]. destruct (N.eqb_spec v 0); cbn [negb]; repeat split; try discriminate; lia.
Qed.
Lemma scaled_bound : forall p x, (-999 <= scaled p x <= 999)%Z -> (-1000 <= x <= 1000)%Z.
Proof. intros [|] x; unfold scaled; lia. Qed.
Lemma told_temperature : forall p t, Told p t -> Temperature_temperature t = match tempValue t with Some x => Some (degree p x) | None => None end.
Proof. intros p t [->|(x & V & P & _)]; [reflexivity|]. unfold Temperature_temperature. rewrite V, P. reflexivity. Qed.
Lemma told_tenths : forall p t x, tempValue t = Some x -> precise t = p -> in_tenths t = Some (scaled p x).
Proof. intros p t x V P. unfold in_tenths. rewrite V, P. reflexivity. Qed.
Lemma temperature_valid : forall g, tg_isIncomplete g = false -> (exists p, Told p (tg_t g) /\ Told p (tg_dp g)) ->
  (TemperatureGroup_isValid g = true <-> not_higher (tg_dp g) (tg_t g)).
Proof.
  intros g I (p & T & D). unfold TemperatureGroup_isValid, not_higher. rewrite I, (told_temperature p _ T), (told_temperature p _ D).
  destruct T as [->|(x & Vx & Px & Bx & Fx & Gx)].
  { split; [|reflexivity]. intros _ a b A B. discriminate B. }
  destruct D as [->|(y & Vy & Py & By & Fy & Gy)].
  { rewrite Vx. split; [|reflexivity]. intros _ a b A B. discriminate A. }
  pose proof (scaled_bound _ _ Bx) as Lx. pose proof (scaled_bound _ _ By) as Ly. rewrite (told_tenths _ _ _ Vx Px), (told_tenths _ _ _ Vy Py), Vx, Vy. destruct (degree_zero p x ltac:(lia)) as [-> _]. destruct (degree_zero p y ltac:(lia)) as [-> _]. rewrite degree_leb by lia.
  split.
  - intros H a b A B. injection A as <-. injection B as <-.
    destruct ((x =? 0)%Z && (y =? 0)%Z && freezing (tg_t g) && negb (freezing (tg_dp g))) eqn:Z; [discriminate H|]. apply Z.leb_le in H.
    destruct (Z.eq_dec y x) as [->|Ne]; [right|left; unfold scaled in *; destruct p; lia]. split; [reflexivity|]. intros (Z0 & F & G). rewrite F, G in Z. cbn [negb] in Z.
    assert (x = 0%Z) by (unfold scaled in *; destruct p; lia). subst x. discriminate Z.
  - intros H. specialize (H _ _ eq_refl eq_refl).
    destruct ((x =? 0)%Z && (y =? 0)%Z && freezing (tg_t g) && negb (freezing (tg_dp g))) eqn:Z; [exfalso|apply Z.leb_le; unfold scaled in *; destruct p; lia].
    rewrite !andb_true_iff in Z. destruct Z as [[[A B] C] D]. apply Z.eqb_eq in A, B. apply negb_true_iff in D. subst x y.
    destruct H as [H|[_ H]]; [unfold scaled in *; destruct p; lia|]. apply H. repeat split; try assumption. destruct p; reflexivity.
Qed.
Lemma temperatures_told : forall part ws tp t d, Temperatures part ws tp t d -> exists p, Told p t /\ Told p d.
Proof.
  intros part ws tp t d H. destruct H as [a b t d _ T D|a b t d _ T D| |].
  - exists false. split; [destruct T as [[_ ->]|T]; [left; reflexivity|exact (whole_told _ _ T)]|].
    destruct D as [[_ ->]|[[_ ->]|D]]; [left; reflexivity|left; reflexivity|exact (whole_told _ _ D)].
  - exists true. split; [exact (tenths_told _ _ T)|]. destruct D as [[_ ->]|D]; [left; reflexivity|exact (tenths_told _ _ D)].
  - exists true. split; left; reflexivity.
  - exists true. split; left; reflexivity.
Qed.

(** ** Minimum and maximum *)
Lemma minmax_valid : forall g p, mm_isIncomplete g = false -> Told p (mm_minTemp g) -> Told p (mm_maxTemp g) ->
  (MinMaxTemperatureGroup_isValid g = true
   <-> below (mm_minTemp g) (mm_maxTemp g) /\ if_any proper_time (mm_minTime g) /\ if_any proper_time (mm_maxTime g)).
Proof.
  intros g p I L H. unfold MinMaxTemperatureGroup_isValid. rewrite I.
  rewrite <- (default_iff _ _ _ (mm_minTime g) MetafTime_default time_proper eq_refl), <- (default_iff _ _ _ (mm_maxTime g) MetafTime_default time_proper eq_refl).
  destruct (MetafTime_isValid (opt_default (mm_minTime g) MetafTime_default)); cbn [negb];
    [|destruct (_ && _ && _ && _); split; try discriminate; intros (_ & X & _); discriminate X].
  destruct (MetafTime_isValid (opt_default (mm_maxTime g) MetafTime_default)); cbn [negb];
    [|destruct (_ && _ && _ && _); split; try discriminate; intros (_ & _ & X); discriminate X].
  rewrite (told_temperature p _ L), (told_temperature p _ H). unfold below, Temperature_isReported.
  assert (C : (-1000 <= 100 <= 1000)%Z /\ (-1000 <= -100 <= 1000)%Z) by lia. destruct C as [C1 C2].
  destruct L as [->|(x & Vx & Px & Bx & Fx & Gx)], H as [->|(y & Vy & Py & By & Fy & Gy)]; cbn [no_temperature tempValue freezing has_value andb opt_default].
  - split; [|intros _; vm_compute; reflexivity]. intros _. repeat split. intros x y A. discriminate A.
  - pose proof (scaled_bound _ _ By) as Ly. unfold scaled in By. rewrite Vy. cbn [has_value opt_default]. assert (Z : flt_ltb (f32_of_Z (-100)) (degree p y) = true).
    { destruct p; [|change (f32_of_Z (-100)) with (degree false (-100)); rewrite degree_order by lia; lia].
      change (f32_of_Z (-100)) with (degree true (-1000)); rewrite degree_order by lia; lia. }
    rewrite Z. split; [|reflexivity]. intros _. repeat split. intros a b A. discriminate A.
  - pose proof (scaled_bound _ _ Bx) as Lx. unfold scaled in Bx. rewrite Vx. cbn [has_value opt_default andb]. assert (Z : flt_ltb (degree p x) (f32_of_Z 100) = true).
    { destruct p; [|change (f32_of_Z 100) with (degree false 100); rewrite degree_order by lia; lia].
      change (f32_of_Z 100) with (degree true 1000); rewrite degree_order by lia; lia. }
    rewrite Z. split; [|reflexivity]. intros _. repeat split. intros a b A B. discriminate B.
  - pose proof (scaled_bound _ _ Bx) as Lx. pose proof (scaled_bound _ _ By) as Ly. rewrite (told_tenths _ _ _ Vx Px), (told_tenths _ _ _ Vy Py), Vx, Vy. cbn [has_value opt_default andb]. rewrite degree_order by lia. split.
    + intros Z. repeat split. intros a b A B. injection A as <-. injection B as <-. destruct (negb (freezing (mm_minTemp g)) && freezing (mm_maxTemp g)); [discriminate Z|].
      unfold scaled in *; destruct p; lia.
    + intros (Z & _). specialize (Z _ _ eq_refl eq_refl). assert (Z' : (x < y)%Z) by (unfold scaled in Z; destruct p; lia).
      destruct (freezing (mm_minTemp g)), (freezing (mm_maxTemp g)); cbn [negb andb]; try (apply Z.ltb_lt; exact Z').
      specialize (Gx eq_refl). specialize (Fy eq_refl). lia.
Qed.
