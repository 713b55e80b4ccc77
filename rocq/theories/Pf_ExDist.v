(** The distances in groups are small enough to be written out in every unit (C65). *)
From Coq Require Import Lia ZArith NArith QArith Qabs.
From Verif Require Import Prim Lib Regex Float Values Weather Groups1 Groups2 Groups3 Groups4 Parser.
From Verif Require Import SpecNumeral SpecReach SpecUnits SpecReal SpecSumNumbers Summary Pf_Ok Pf_Decimal Pf_Numeral Pf_Values1 Pf_Values2 Pf_Parsed Pf_Kinds Pf_Refuse.
From Verif Require Import Pf_Bounded Pf_Units Pf_Miles Pf_SumRange.
Local Open Scope N_scope.

Definition dist_fine (d : Distance) : Prop := forall n, dist d = Some n ->
  n <= 2000000 /\ (distUnit d = STATUTE_MILES -> n mod 10000 = 0 -> n <= 1000000) /\ (distUnit d = STATUTE_MILES \/ n <= 200000).
Definition dist_fresh (d : Distance) : Prop := forall n, dist d = Some n -> n <= 1000000 /\ (distUnit d = STATUTE_MILES \/ n <= 200000).
Lemma fresh_fine : forall d, dist_fresh d -> dist_fine d.
Proof. intros d H n E. destruct (H n E) as [A B]. split; [lia|]. split; [intros; lia|exact B]. Qed.

(** They are converted without overflow. *)
Lemma fine_converts : forall d n u, dist_fine d -> dist d = Some n -> exists x z, Distance_toUnit d u = Some x /\ trunc_to_int x = Ok z.
Proof.
  intros [m o u0] n u F E. destruct (F n E) as (A & _ & U). cbn [dist distUnit] in *. subst o.
  destruct (distance_accurate m n u0 u ltac:(lia)) as (x & X & C).
  destruct (about_of _ _ _ C) as (z & Z & _); [split; discriminate| |exists x, z; auto].
  destruct U as [-> |U]; destruct u; try destruct u0; unfold converted, stored, parts, metres_in, Qdiv, Qinv, Qmult, Qabs, Qle; cbn [Qnum Qden]; lia.
Qed.
Lemma fine_miles : forall d n, dist_fine d -> dist d = Some n -> exists x, Distance_miles d = Ok (Some x).
Proof.
  intros [m o u0] n F E. destruct (F n E) as (A & _). cbn [dist] in *. subst o.
  destruct (miles_presents m n u0 ltac:(lia)) as (i & f & H & _). eauto.
Qed.

Lemma u32_le : forall x, u32 x <= x.
Proof. intros x. unfold u32. apply N.mod_le. discriminate. Qed.
Lemma uint_bound : forall s p n v, (n <= 9)%nat -> strToUint s p n = Ok (Some v) -> v < 10 ^ N.of_nat n.
Proof. intros s p n v L H. apply strToUint_exact in H; tauto. Qed.

Lemma f_none : forall m u, dist_fresh (mkDist m None u).
Proof. intros m u n E. discriminate E. Qed.
Lemma f_default : dist_fresh Distance_default.
Proof. intros n E. discriminate E. Qed.
Lemma f_unit : forall u, dist_fresh (Distance_ofUnit u).
Proof. intros u n E. discriminate E. Qed.
Lemma f_small : forall m v u, v <= 200000 -> dist_fresh (mkDist m (Some v) u).
Proof. intros m v u L n E. cbn [dist distUnit] in *. injection E as <-. split; [lia|right; lia]. Qed.
Lemma f_mile : forall m v, v <= 1000000 -> dist_fresh (mkDist m (Some v) STATUTE_MILES).
Proof. intros m v L n E. cbn [dist distUnit] in *. injection E as <-. split; [lia|left; reflexivity]. Qed.
Lemma f_meter : forall s d, Distance_fromMeterString s = Ok (Some d) -> dist_fresh d.
Proof.
  intros s d H. apply meter_parse in H. destruct H as [[_ ->]|[[_ ->]|(v & N & _ & ->)]]; [apply f_none|apply f_small; lia|].
  pose proof (numeral_bound _ _ _ N) as B; cbn in B. apply f_small; lia.
Qed.
Lemma f_rvr : forall s f d, Distance_fromRvrString s f = Ok (Some d) -> dist_fresh d.
Proof.
  intros s f d H. apply rvr_parse in H. destruct H as [[_ ->]|(p & m & n & v & _ & _ & N & ->)]; [apply f_none|].
  pose proof (numeral_bound _ _ _ N) as B; cbn in B. apply f_small; lia.
Qed.
Lemma f_height : forall s d, Distance_fromHeightString s = Ok (Some d) -> dist_fresh d.
Proof.
  intros s d H. apply height_parse in H. destruct H as [[_ ->]|(v & N & ->)]; [apply f_none|].
  pose proof (numeral_bound _ _ _ N) as B; cbn in B. apply f_small; lia.
Qed.
Lemma f_layer : forall s a b, Distance_fromLayerString s = Ok (Some (a, b)) -> dist_fresh a /\ dist_fresh b.
Proof.
  intros s a b H. apply layer_parse in H. destruct H as (h & t & v & w & _ & N & M & E). pose proof (f_equal fst E) as EA; pose proof (f_equal snd E) as EB; cbn [fst snd] in EA, EB; subst a b.
  pose proof (numeral_bound _ _ _ N) as B; pose proof (numeral_bound _ _ _ M) as C; cbn in B, C. split; apply f_small; lia.
Qed.
Lemma f_km : forall s d, Distance_fromKmString s = Ok (Some d) -> dist_fresh d.
Proof.
  intros s d H. apply km_parse in H. destruct H as (n & v & _ & [N|N] & ->); pose proof (numeral_bound _ _ _ N) as B; cbn in B; apply f_small; lia.
Qed.
Lemma fraction_bound : forall s p l n q, fractionStrToUint s p l = Ok (Some (n, q)) -> n < 100 /\ q < 100.
Proof.
  intros s p l n q H. unfold fractionStrToUint in H.
  destruct (sfind _ _ _) as [sl|]; [|discriminate H]. cbv zeta in H.
  set (a := (Z.of_nat sl - Z.of_nat p)%Z) in *. set (b := (_ - (Z.of_nat sl + 1))%Z) in *.
  destruct ((a <? 1)%Z || (2 <? a)%Z)%bool eqn:A; [discriminate H|]. destruct ((b <? 1)%Z || (2 <? b)%Z)%bool eqn:B; [discriminate H|].
  assert (Bd : forall s p z x, ((z <? 1)%Z || (2 <? z)%Z)%bool = false -> strToUint s p (Z.to_nat z) = Ok (Some x) -> x < 100).
  { intros s' p' z x Zb X. apply Bool.orb_false_elim in Zb. destruct Zb as [Z1 Z2]. apply Z.ltb_ge in Z1, Z2.
    apply uint_bound in X; [|lia]. assert (Hz : (z = 1 \/ z = 2)%Z) by lia. destruct Hz as [-> | ->]; cbn in X; lia. }
  apply bind_ok in H. destruct H as ([x|] & X & H); apply bind_ok in H; destruct H as ([y|] & Y & H); try discriminate H.
  injection H as -> ->. split; [exact (Bd _ _ _ _ A X)|exact (Bd _ _ _ _ B Y)].
Qed.
Lemma f_fraction : forall n q, n < 100 -> dist_fresh (Distance_ofFraction n q).
Proof.
  intros n q L. unfold Distance_ofFraction. destruct (q =? 0) eqn:Q; [exact f_default|]. apply N.eqb_neq in Q. apply f_mile.
  assert (u32 (n * statuteMileFactor) <= 990000) by (eapply N.le_trans; [apply u32_le|unfold statuteMileFactor; lia]).
  apply N.div_le_upper_bound; [exact Q|]. nia.
Qed.
Lemma f_mileText : forall s r d, Distance_fromMileString s r = Ok (Some d) -> dist_fresh d.
Proof.
  intros s r d H. unfold Distance_fromMileString in H. apply bind_ok in H. destruct H as (early & E & H).
  destruct early as [e|].
  { assert (e = Some d) by congruence. subst e. destruct r; cbn [negb] in E.
    - destruct (Nat.ltb _ _); discriminate E.
    - destruct (Nat.ltb _ _); [discriminate E|]. destruct (seqb _ _); [injection E as <-; apply f_none|].
      apply bind_ok in E. destruct E as (t & _ & E). destruct (negb _); discriminate E. }
  clear E. apply bind_ok in H. destruct H as (c0 & _ & H). cbv zeta in H.
  set (b := (_ - _ - _)%Z) in *. set (m := match Distance_modifierFromChar c0 with Some m => m | None => DM_NONE end) in *.
  destruct (sfind _ _ _) as [sl|].
  - apply bind_ok in H. destruct H as ([[n q]|] & F & H); [|discriminate H]. apply fraction_bound in F. cbn [fst snd] in H.
    destruct ((n =? 0) || (q =? 0))%bool eqn:NZ; [discriminate H|]. match type of H with (if ?b then _ else _) = _ => destruct b; [discriminate H|] end.
    apply Bool.orb_false_elim in NZ. destruct NZ as [_ Q]. apply N.eqb_neq in Q.
    injection H as <-. apply f_mile. eapply N.le_trans; [apply u32_le|]. unfold statuteMileFactor in *.
    set (i := if q <=? n then n / 10 else 0). set (j := if q <=? n then n mod 10 else n).
    assert (I : i <= 9) by (unfold i; destruct (q <=? n); [|lia]; pose proof (N.div_lt_upper_bound n 10 10); lia).
    assert (J : j <= 99) by (unfold j; destruct (q <=? n); [pose proof (N.mod_lt n 10 ltac:(lia))|]; lia).
    assert (K : u32 (j * 10000) / q <= j * 10000) by (apply N.div_le_upper_bound; [exact Q|]; pose proof (u32_le (j * 10000)); nia).
    assert (W : q <= n -> j <= 9) by (intros L; unfold j; apply N.leb_le in L; rewrite L; pose proof (N.mod_lt n 10 ltac:(lia)); lia).
    assert (V : n < q -> i = 0) by (intros L; unfold i; apply N.leb_gt in L; rewrite L; reflexivity).
    destruct (N.lt_ge_cases n q) as [L|L]; [rewrite (V L)|specialize (W L)]; lia.
  - destruct (_ || _)%bool eqn:B; [discriminate H|]. apply bind_ok in H. destruct H as ([v|] & F & H); [|discriminate H].
    injection H as <-. apply Bool.orb_false_elim in B. destruct B as [Z1 Z2]. apply Z.ltb_ge in Z1, Z2.
    apply uint_bound in F; [|lia]. assert (Hz : (b = 1 \/ b = 2)%Z) by lia. apply f_mile. eapply N.le_trans; [apply u32_le|]. unfold statuteMileFactor.
    destruct Hz as [Hz|Hz]; rewrite Hz in F; cbn in F; lia.
Qed.
Lemma f_join : forall a b d, dist_fine a -> dist_fresh b -> Distance_fromIntegerAndFraction a b = Ok (Some d) -> dist_fine d.
Proof.
  intros a b d A B H. unfold Distance_fromIntegerAndFraction in H.
  destruct (_ && _)%bool; [discriminate H|]. destruct (_ || _)%bool eqn:G; [discriminate H|].
  repeat (apply Bool.orb_false_elim in G; destruct G as [G ?]).
  apply bind_ok in H. destruct H as (i & I & H). apply bind_ok in H. destruct H as (f & F & H).
  destruct (dist a) as [i'|] eqn:DA; [|discriminate I]. injection I as ->.
  destruct (dist b) as [f'|] eqn:DB; [|discriminate F]. injection F as ->.
  destruct (_ || _)%bool eqn:M; [discriminate H|]. apply Bool.orb_false_elim in M. destruct M as [M1 M2].
  apply Bool.negb_false_iff in M1. apply N.eqb_eq in M1. apply N.eqb_neq in M2. injection H as <-.
  assert (UA : distUnit a = STATUTE_MILES) by (destruct (distUnit a); try reflexivity; discriminate).
  destruct (A _ DA) as (_ & A1 & _). destruct (B _ DB) as (B1 & _). unfold statuteMileFactor in *. specialize (A1 UA M1).
  intros n E. cbn [dist distUnit] in *. injection E as <-. rewrite (u32_id (i + f)) by lia.
  split; [lia|]. split; [|left; reflexivity]. intros _ X. exfalso. apply M2.
  rewrite (N.add_mod i f 10000), M1, N.add_0_l, N.mod_mod in X by lia. exact X.
Qed.
#[export] Hint Resolve f_none f_default f_unit f_meter f_rvr f_height f_km f_mileText : fine.
Lemma f_distant : dist_fresh Distance_makeDistant.
Proof. apply f_none. Qed.
Lemma f_vicinity : dist_fresh Distance_makeVicinity.
Proof. apply f_none. Qed.
#[export] Hint Resolve f_distant f_vicinity fresh_fine : fine.

(** Visibility *)
Definition vis_fine (k : VisibilityGroup) : Prop := dist_fine (vi_vis k) /\ dist_fine (vi_visMax k).
Ltac vf := unfold vis_fine, Vis_setVis, Vis_setVisMax, Vis_setInc, Vis_setType, Vis_setRw, Vis_setDir, Vis_setSector in *; cbn in *;
  try match goal with I : _ /\ _ |- _ => destruct I end; split; eauto with fine.
Lemma vf_direction : forall k s n k', vis_fine k -> Vis_appendDirection k s n = Ok (Some k') -> vis_fine k'.
Proof. intros k s n k' I H. unfold Vis_appendDirection in H. peel_all H; vf. all: destruct (ViType_beq _ _); auto. Qed.
Lemma vf_runway : forall k s n k', vis_fine k -> Vis_appendRunway k s n = Ok (Some k') -> vis_fine k'.
Proof. intros k s n k' I H. unfold Vis_appendRunway in H. peel_all H; vf. all: repeat (match goal with |- context [ViType_beq ?a ?b] => destruct (ViType_beq a b) end; cbn); auto. Qed.
Lemma vf_integer : forall k s n k', vis_fine k -> Vis_appendInteger k s n = Ok (Some k') -> vis_fine k'.
Proof. intros k s n k' I H. unfold Vis_appendInteger in H. peel_all H; vf. Qed.
Lemma vf_fraction : forall k s n k', vis_fine k -> Vis_appendFraction k s n = Ok (Some k') -> vis_fine k'.
Proof. intros k s n k' I H. unfold Vis_appendFraction in H. peel_all H; deep; vf; eauto using f_join, f_mileText. Qed.
Lemma vf_maxfraction : forall k s n k', vis_fine k -> Vis_appendVariableMaxFraction k s n = Ok (Some k') -> vis_fine k'.
Proof.
  intros k s n k' I H. unfold Vis_appendVariableMaxFraction in H. apply bind_ok in H. destruct H as ([[a b]|] & E & H); [|discriminate H].
  apply fraction_bound in E. destruct E as [L _]. cbn [fst snd] in H. peel_all H; vf. eapply f_join; [| |eassumption]; [assumption|apply f_fraction; exact L].
Qed.
Lemma vf_variable : forall k s n m k', vis_fine k -> Vis_appendVariable k s n m = Ok (Some k') -> vis_fine k'.
Proof. intros k s n m k' I H. unfold Vis_appendVariable in H. peel_all H; deep; vf; eauto using f_join, f_mileText. Qed.
Lemma vf_meters : forall k s n k', vis_fine k -> Vis_appendMeters k s n = Ok (Some k') -> vis_fine k'.
Proof. intros k s n k' I H. unfold Vis_appendMeters in H. peel_all H; deep; vf. Qed.
Lemma vf_varmeters : forall k s n k', vis_fine k -> Vis_appendVariableMeters k s n = Ok (Some k') -> vis_fine k'.
Proof. intros k s n k' I H. unfold Vis_appendVariableMeters in H. peel_all H; deep; vf. Qed.
Lemma vis_seen : forall k, vis_fine k -> dist_fine (VisibilityGroup_visibility k).
Proof. intros k [A B]. unfold VisibilityGroup_visibility. destruct (Vis_isVariable _); eauto with fine. Qed.
Lemma vf_incomplete : forall k s n k', vis_fine k -> Vis_appendFractionToIncompleteInteger k s n = Ok (Some k') -> vis_fine k'.
Proof.
  intros k s n k' I H. pose proof (vis_seen k I). unfold Vis_appendFractionToIncompleteInteger in H. peel_all H; deep; vf; eauto using f_join, f_mileText.
Qed.
Lemma visibility_fine : forall k, Reachable (GVisibility k) -> vis_fine k.
Proof.
  apply (reach_Visibility vis_fine).
  - intros s part md k H. unfold VisibilityGroup_parse, Vis_fromIncompleteInteger, Vis_fromMeters, Vis_fromRvr, or_else in H.
    peel_all H; deep; try (vf; fail).
    refine (vf_integer Vis_default s ViI_NONE v _ E5). split; apply fresh_fine; exact f_default.
  - intros k s part md k' a _ I H. unfold VisibilityGroup_append in H. destruct (vi_inc k).
    all: repeat first
      [ match type of H with (if ?b then _ else _) = _ => destruct b end
      | revert H; apply vs_try; [intros g'; first [apply vf_direction|apply vf_runway|apply vf_integer|apply vf_fraction|apply vf_maxfraction|apply vf_variable|apply vf_meters|apply vf_varmeters|apply vf_incomplete]; exact I|intros H]
      | apply bind_ok in H; destruct H as ([x|] & E & H); [apply vf_variable in E; [|exact I]|] ].
    all: injection H as <- <-; assumption.
Qed.

(** Other groups *)
Lemma wind_fine : forall k, Reachable (GWind k) -> dist_fine (wi_height k).
Proof.
  apply (reach_Wind (fun k => dist_fine (wi_height k))).
  - intros s part md k H. unfold WindGroup_parse, or_else, Wind_parseVariableSector, Wind_parseSurfaceOrShear in H.
    peel_all H; deep; cbn; eauto with fine. destruct x3; eauto with fine.
  - intros k s part md k' a _ I H. unfold WindGroup_append, Wind_appendVariableSector, Wind_appendPeakWind, Wind_appendWindShift in H. peel_all H; deep; cbn in *; eauto with fine.
Qed.
Lemma ob_fresh : forall s c, CloudType_fromStringObscuration s = Some c -> dist_fresh (ctHt c).
Proof. intros s c H. unfold CloudType_fromStringObscuration in H. destruct (lookup _ _); [|discriminate H]. injection H as <-. apply f_none. Qed.
Definition cloud_fine (k : CloudGroup) : Prop := dist_fine (cl_h k) /\ dist_fine (cl_maxHt k) /\ dist_fine (ctHt (cl_cldTp k)).
Lemma cloud_fine_all : forall k, Reachable (GCloud k) -> cloud_fine k.
Proof.
  apply (reach_Cloud cloud_fine).
  - intros s part md k H. unfold CloudGroup_parse, Cloud_parseCloudLayerOrVertVis, Cloud_parseVariableCloudLayer in H.
    peel_all H; deep; unfold cloud_fine; cbn; refine (conj _ (conj _ _)); eauto with fine.
    all: apply fresh_fine; eapply ob_fresh; eassumption.
  - intros k s part md k' a _ (I & J & K) H.
    unfold CloudGroup_append, Cloud_appendVariableCloudAmount, Cloud_appendCeiling, Cloud_appendRunwayOrCardinalDirection, Cloud_appendObscuration in H.
    peel_all H; deep; unfold cloud_fine; cbn in *; refine (conj _ (conj _ _)); eauto with fine.
Qed.
Lemma layer_fine : forall k, Reachable (GLayerForecast k) -> dist_fine (lf_base k) /\ dist_fine (lf_top k).
Proof.
  apply (reach_LayerForecast (fun k => dist_fine (lf_base k) /\ dist_fine (lf_top k))).
  - intros s part md k H. unfold LayerForecastGroup_parse in H. peel_all H; deep; cbn; split; eauto with fine.
    all: match goal with E : deref _ = Ok (?a : Distance * Distance) |- _ => idtac | _ => idtac end.
    all: try match goal with E : deref ?o = Ok ?h, D : Distance_fromLayerString _ = Ok ?o |- _ =>
      destruct o as [[b t]|]; [|discriminate E]; injection E as <-; destruct (f_layer _ _ _ D); cbn; eauto with fine end.
  - intros k s part md k' a _ (I & J) H. unfold LayerForecastGroup_append in H. peel_all H; deep; cbn in *; split; eauto with fine.
Qed.
Lemma loop_dist : forall n s p g k, Lightning_typeLoop s n p g = Ok k -> lt_dist k = lt_dist g.
Proof.
  induction n as [|n IH]; intros s p g k H; cbn [Lightning_typeLoop] in H; [injection H as <-; reflexivity|].
  destruct (Nat.ltb _ _); [|injection H as <-; reflexivity]. apply bind_ok in H. destruct H as (t & _ & H). rewrite (IH _ _ _ _ H). reflexivity.
Qed.
Lemma ltg_dist : forall s k, Lightning_fromLtgGroup s = Ok (Some k) -> lt_dist k = Distance_default.
Proof.
  intros s k H. unfold Lightning_fromLtgGroup in H. peel_all H; [reflexivity|]. eapply (loop_dist _ _ _ Lightning_default); eassumption.
Qed.
Lemma ltg_fine : forall s k, Lightning_fromLtgGroup s = Ok (Some k) -> dist_fine (lt_dist k).
Proof. intros s k H. rewrite (ltg_dist s k H). apply fresh_fine, f_default. Qed.
#[local] Hint Resolve ltg_fine : fine.
Lemma lightning_fine : forall k, Reachable (GLightning k) -> dist_fine (lt_dist k).
Proof.
  apply (reach_Lightning (fun k => dist_fine (lt_dist k))).
  - intros s part md k H. unfold LightningGroup_parse in H. destruct (negb _); [discriminate H|]. do 3 (destruct (seqb _ _); [injection H as <-; apply fresh_fine, f_default|]). exact (ltg_fine _ _ H).
  - intros k s part md k' a _ I H. unfold LightningGroup_append in H. peel H; deep; cbn in *; eauto with fine.
Qed.
Lemma dir1_dist : forall k s k', Vicinity_appendDir1 k s = Some k' -> vc_dist k' = vc_dist k.
Proof.
  intros k s k' H. unfold Vicinity_appendDir1 in H.
  repeat match type of H with match ?o with _ => _ end = Some _ => destruct o end; try discriminate H; injection H as <-; reflexivity.
Qed.
Lemma dir2_dist : forall k s k', Vicinity_appendDir2 k s = Some k' -> vc_dist k' = vc_dist k.
Proof.
  intros k s k' H. unfold Vicinity_appendDir2 in H.
  repeat match type of H with match ?o with _ => _ end = Some _ => destruct o end; try discriminate H; injection H as <-; reflexivity.
Qed.
Lemma vicinity_fine : forall k, Reachable (GVicinity k) -> dist_fine (vc_dist k).
Proof.
  apply (reach_Vicinity (fun k => dist_fine (vc_dist k))).
  - intros s part md k H. unfold VicinityGroup_parse in H. peel_all H; deep; cbn; eauto with fine.
  - intros k s part md k' a _ I H. unfold VicinityGroup_append, Vicinity_appendDistance in H. peel_all H; deep; cbn in *; eauto with fine.
    all: match goal with E : _ = Some ?v |- dist_fine (vc_dist ?v) => first [rewrite (dir1_dist _ _ _ E)|rewrite (dir2_dist _ _ _ E)]; exact I end.
Qed.
Lemma ct_fine : forall s c, CloudType_fromString s = Ok (Some c) -> dist_fine (ctHt c).
Proof. intros s c H. unfold CloudType_fromString in H. peel_all H; deep; cbn; eauto with fine. Qed.
Lemma push_fine : forall n l c l', Forall (fun c => dist_fine (ctHt c)) l -> dist_fine (ctHt c) -> array_push n l c = Ok l' -> Forall (fun c => dist_fine (ctHt c)) l'.
Proof.
  intros n l c l' F D H. unfold array_push in H. destruct (Nat.ltb _ _); [|discriminate H]. injection H as <-. apply Forall_app; auto.
Qed.
Lemma loop_fine : forall ms l k, Forall (fun c => dist_fine (ctHt c)) l -> CloudTypes_loop ms l = Ok (Some k) -> Forall (fun c => dist_fine (ctHt c)) (cty_cldTp k).
Proof.
  induction ms as [|s ms IH]; intros l k F H; cbn [CloudTypes_loop] in H; [injection H as <-; exact F|].
  destruct (Nat.leb _ _); [injection H as <-; exact F|]. apply bind_ok in H. destruct H as ([c|] & C & H); [|discriminate H].
  apply bind_ok in H. destruct H as (l' & P & H). exact (IH _ _ (push_fine _ _ _ _ F (ct_fine _ _ C) P) H).
Qed.
Lemma types_fine : forall k, Reachable (GCloudTypes k) -> Forall (fun c => dist_fine (ctHt c)) (CloudTypesGroup_cloudTypes k).
Proof.
  apply (reach_CloudTypes (fun k => Forall (fun c => dist_fine (ctHt c)) (CloudTypesGroup_cloudTypes k))).
  - intros s part md k H. unfold CloudTypesGroup_parse, or_else in H. destruct (negb _); [discriminate H|].
    apply bind_ok in H. destruct H as ([k1|] & E & H).
    + injection H as <-. peel_all E. cbn. constructor; [eauto using ct_fine|constructor].
    + destruct (is_match _ _); [|discriminate H]. exact (loop_fine _ [] _ (Forall_nil _) H).
  - intros k s part md k' a _ I H. unfold CloudTypesGroup_append in H. peel H; cbn in *; eauto.
    eapply push_fine; eauto using ct_fine.
Qed.
