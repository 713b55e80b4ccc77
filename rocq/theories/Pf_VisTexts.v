(** C51: the texts in visibility groups. *)
From Coq Require Import Lia ZifyBool ZifyN ZifyNat.
From Verif Require Import Prim Lib Regex Float Values Groups1 Groups2 Groups4 Parser SpecRegex SpecForm SpecDecimal SpecNumeral
  SpecMiles SpecDirection SpecNearby SpecTexts SpecVisibility.
From Verif Require Import Pf_Ok Pf_OkValues Pf_OkGroups2 Pf_Caps Pf_Regex Pf_Decimal Pf_Numeral Pf_Form Pf_Shapes Pf_Decode Pf_Layout Pf_Prefer
  Pf_Values1 Pf_Values2 Pf_Values3 Pf_Values4 Pf_Values9 Pf_Formats Pf_Texts Pf_Nearby.
Import SpecVisibility.
Local Open Scope string_scope.

Lemma none_of : forall A (e : res (option A)), ok e (fun _ => True) -> (forall x, e <> Ok (Some x)) -> e = Ok None.
Proof. intros A [[x|]|] O H; [destruct (H x eq_refl)|reflexivity|contradiction]. Qed.
Lemma prefix_limits : forall p m, mile_prefix p m <-> In (p, m) limits.
Proof.
  intros p m. unfold mile_prefix, limits. cbn [In]. split.
  - intros [[-> ->]|[[-> ->]|[-> ->]]]; auto.
  - intros [H|[H|[H|[]]]]; injection H as <- <-; auto.
Qed.
(** ** Miles *)
Lemma miles_words : forall s (remark : bool) d, Distance_fromMileString s remark = Ok (Some d) <->
  Miles (if remark then "" else "SM") s d \/ remark = false /\ s = "////SM" /\ d = mkDist DM_NONE None STATUTE_MILES.
Proof.
  intros s remark d. rewrite mile_parse. unfold Miles. setoid_rewrite prefix_limits. tauto.
Qed.
Lemma miles_remark : forall s d, Distance_fromMileString s true = Ok (Some d) <-> Miles "" s d.
Proof. intros s d. rewrite miles_words. split; [intros [H|[H _]]; [exact H|discriminate H]|auto]. Qed.
Definition re_whole : re := Eval vm_compute in rx "[MP]?\d\d?".
Definition re_broken : re := Eval vm_compute in rx "[MP]?\d\d?/\d\d?".
Definition re_miles : re := Eval vm_compute in rx "[MP]?\d\d?(?:/\d\d?)?".
Definition re_var : re := Eval vm_compute in rx "[MP]?\d\d?(?:/\d\d?)?V[MP]?\d\d?(?:/\d\d?)?".
Definition re_fraction : re := Eval vm_compute in rx "\d\d?/\d\d?".
Definition re_meters : re := Eval vm_compute in rx "\d\d\d\d".
Definition re_runway : re := Eval vm_compute in rx "R(?:WY)?\d\d[RLC]?".
Definition re_short : re := Eval vm_compute in rx "\d\d?".
Definition re_sign : re := Eval vm_compute in rx "[MP]?".
Lemma short_lang : forall s v, short_numeral s v -> Lang re_short s.
Proof.
  intros s v [N|N].
  - assert (E : s = s ++ "") by (clear; induction s; cbn; congruence). rewrite E. apply L_seq; [apply (numeral_lang 1 s v); [exact N|reflexivity]|constructor].
  - destruct N as [L D]. explode. change (String c (String c0 "")) with (String c "" ++ String c0 "").
    pose proof (numeral_shape 2 (String c (String c0 "")) v (conj eq_refl D)) as F. unfold fits_shape in F. cbn in F.
    apply andb_prop in F. destruct F as [F1 F]. apply andb_prop in F. destruct F as [F2 _].
    apply L_seq; [apply L_cls; exact F1|]. apply L_opt1. apply L_cls. exact F2.
Qed.
Lemma sign_lang : forall p m, In (p, m) limits -> Lang re_sign p.
Proof. intros p m [H|[H|[H|[]]]]; injection H as <- <-; apply closed_lang; reflexivity. Qed.
Lemma numeral1_short : forall s v, numeral 1 s v -> short_numeral s v.
Proof. intros s v H. left. exact H. Qed.
Lemma two_digits : forall a b v w, numeral 1 a v -> numeral 1 b w -> short_numeral (a ++ b) (10 * v + w).
Proof.
  intros a b v w [La Da] [Lb Db]. explode. right. split; [reflexivity|].
  cbn [append decimal String.length N.of_nat] in *.
  destruct (digit_of c0) as [x|]; [|discriminate Da]. destruct (digit_of c) as [y|]; [|discriminate Db].
  change (10 ^ 0)%N with 1%N in *. change (10 ^ N.of_nat 1)%N with 10%N. injection Da as <-. injection Db as <-. f_equal. lia.
Qed.
Lemma mile_body : forall s w n q, MileText s w n q -> Lang re_short s /\ n = 0%N /\ q = 1%N /\ short_numeral s w \/ exists s1 s2, s = s1 ++ "/" ++ s2 /\ Lang re_short s1 /\ Lang re_short s2.
Proof.
  intros s w n q H. destruct H as [s v N|s1 s2 n d N1 N2 _ _ _|s0 s1 s2 w n d N0 N1 N2 _ _ _].
  - left. split; [eapply short_lang; exact N|auto].
  - right. exists s1, s2. eauto using short_lang.
  - right. exists (s0 ++ s1), s2. split; [rewrite sapp_assoc; reflexivity|]. split; [|eauto using short_lang].
    eapply short_lang. apply two_digits; eassumption.
Qed.
Lemma empty_app : forall a, a ++ "" = a.
Proof. induction a; cbn; congruence. Qed.
Lemma slash_lang : Lang (RCls [("/", "/")]%char) "/".
Proof. apply closed_lang. reflexivity. Qed.
Lemma sign_whole : forall p m s, In (p, m) limits -> Lang re_short s -> Lang re_whole (p ++ s).
Proof. intros p m s P L. apply L_seq; [eapply sign_lang; exact P|exact L]. Qed.
Lemma sign_broken : forall p m s1 s2, In (p, m) limits -> Lang re_short s1 -> Lang re_short s2 -> Lang re_broken (p ++ s1 ++ "/" ++ s2).
Proof.
  intros p m s1 s2 P L1 L2. unfold re_broken. apply L_seq; [eapply sign_lang; exact P|]. inversion L1; subst. rewrite sapp_assoc.
  apply L_seq; [assumption|]. apply L_seq; [assumption|]. apply L_seq; [apply slash_lang|exact L2].
Qed.
Lemma miles_shape : forall s d, Miles "" s d -> Lang re_whole s /\ Whole_miles s d \/ Lang re_broken s /\ Broken_miles s d.
Proof.
  intros s d H. destruct H as (p & m & body & w & n & q & k & -> & P & T & E & B). rewrite empty_app. destruct (mile_body _ _ _ _ T) as [(L & -> & -> & N)|(s1 & s2 & -> & L1 & L2)].
  - left. split; [eapply sign_whole; eassumption|]. exists p, m, body, w. split; [reflexivity|]. split; [exact P|]. split; [exact N|].
    subst d. do 2 f_equal. lia.
  - right. split; [eapply sign_broken; eassumption|]. split; [|exists (p ++ s1), s2; rewrite sapp_assoc; reflexivity].
    exists p, m, (s1 ++ "/" ++ s2), w, n, q, k. rewrite empty_app. auto.
Qed.
Lemma whole_miles : forall s d, Whole_miles s d -> Miles "" s d.
Proof.
  intros s d (p & m & n & v & -> & P & N & ->). exists p, m, n, v, 0%N, 1%N, (10000 * v)%N. rewrite empty_app.
  split; [reflexivity|]. split; [exact P|]. split; [constructor; exact N|]. split; [reflexivity|lia].
Qed.
Lemma whole_lang : forall s d, Whole_miles s d -> Lang re_whole s.
Proof. intros s d (p & m & n & v & -> & P & N & ->). eapply sign_whole; [exact P|eapply short_lang; exact N]. Qed.
Lemma slash_char : forall a b, exists p q, a ++ "/" ++ b = p ++ "/" ++ q.
Proof. eauto. Qed.
Lemma no_slash : forall r s, cls_all (fun c => negb (Ascii.eqb c "/")) r = true -> Lang r s -> forall a b, s <> a ++ "/" ++ b.
Proof.
  intros r s C L a b ->. pose proof (lang_cls_all _ _ _ L C) as X. rewrite str_all_app in X. apply andb_prop in X. destruct X as [_ X]. discriminate X.
Qed.
Lemma broken_lang : forall s d, Broken_miles s d -> Lang re_broken s.
Proof.
  intros s d [M (a & b & E)]. destruct (miles_shape _ _ M) as [[L _]|[L _]]; [|exact L]. exfalso. exact (no_slash re_whole _ eq_refl L _ _ E).
Qed.
Lemma miles_lang : forall s d, Miles "" s d -> Lang re_miles s.
Proof.
  intros s d M. destruct (miles_shape _ _ M) as [[L _]|[L _]].
  - unfold re_whole in L. inversion L as [| |a b p q Lp Lq| | | | | | |]; subst. inversion Lq as [| |a b p' q' Lp' Lq'| | | | | | |]; subst.
    unfold re_miles. apply L_seq; [exact Lp|]. apply L_seq; [exact Lp'|]. rewrite <- (empty_app q'). apply L_seq; [exact Lq'|constructor].
  - unfold re_broken in L. inversion L as [| |a b p q Lp Lq| | | | | | |]; subst. inversion Lq as [| |a b p' q' Lp' Lq'| | | | | | |]; subst.
    inversion Lq' as [| |a b p2 q2 Lp2 Lq2| | | | | | |]; subst.
    unfold re_miles. apply L_seq; [exact Lp|]. apply L_seq; [exact Lp'|]. apply L_seq; [exact Lp2|]. apply L_opt1. exact Lq2.
Qed.
Lemma var_lang : forall a b lo hi, Miles "" a lo -> Miles "" b hi -> Lang re_var (a ++ "V" ++ b).
Proof.
  intros a b lo hi A B. apply miles_lang in A, B. unfold re_miles in A. unfold re_var.
  inversion A as [| |x y p q Lp Lq| | | | | | |]; subst. inversion Lq as [| |x y p' q' Lp' Lq'| | | | | | |]; subst. inversion Lq' as [| |x y p2 q2 Lp2 Lq2| | | | | | |]; subst.
  rewrite !sapp_assoc. apply L_seq; [exact Lp|]. apply L_seq; [exact Lp'|]. apply L_seq; [exact Lp2|]. apply L_seq; [exact Lq2|].
  apply L_seq; [apply closed_lang; reflexivity|exact B].
Qed.
(** ** The helpers of the model *)
Lemma not_slash : forall r s, cls_all (fun c => negb (Ascii.eqb c "/")) r = true -> Lang r s -> has_value (sfind "/" s 0) = false.
Proof.
  intros r s C L. destruct (sfind "/" s 0) as [k|] eqn:F; [exfalso|reflexivity]. unfold sfind in F. rewrite sdrop_0 in F.
  apply sfind0_inv in F. destruct F as (a & b & E & _). exact (no_slash r s C L _ _ E).
Qed.
Lemma has_slash : forall a b, has_value (sfind "/" (a ++ "/" ++ b) 0) = true.
Proof.
  intros a b. destruct (sfind "/" (a ++ "/" ++ b) 0) eqn:F; [reflexivity|exfalso]. unfold sfind in F. rewrite sdrop_0 in F. apply sfind_has in F.
  rewrite has_app in F. cbn in F. rewrite Bool.orb_true_r in F. discriminate F.
Qed.
Lemma slash_split : forall s, has_value (sfind "/" s 0) = true -> exists a b, s = a ++ "/" ++ b.
Proof.
  intros s H. destruct (sfind "/" s 0) as [k|] eqn:F; [|discriminate H]. unfold sfind in F. rewrite sdrop_0 in F.
  apply sfind0_inv in F. destruct F as (a & b & E & _). exists a, b. exact E.
Qed.
Lemma integer_append : forall g w n g', Distance_isReported (vi_vis g) = false ->
  (Vis_appendInteger g w n = Ok (Some g') <-> exists d, Whole_miles w d /\ g' = Vis_setInc (Vis_setVis g d) n).
Proof.
  intros g w n g' R. unfold Vis_appendInteger. rewrite R. split.
  - intros H. destruct (_ || _); [discriminate H|]. destruct (has_value (sfind "/" w 0)) eqn:F; [discriminate H|].
    destruct (Distance_fromMileString w true) as [[d|]|] eqn:M; try discriminate H. injection H as <-. apply miles_remark in M.
    exists d. split; [|reflexivity]. destruct (miles_shape _ _ M) as [[_ W]|[_ [_ (a & b & ->)]]]; [exact W|]. rewrite has_slash in F. discriminate F.
  - intros (d & W & ->). rewrite (not_slash re_whole w eq_refl (whole_lang _ _ W)).
    assert (L : sempty w || Nat.ltb 3 (slen w) = false).
    { destruct W as (p & m & x & v & -> & P & N & _). assert (slen p <= 1)%nat by (destruct P as [P|[P|[P|[]]]]; injection P as <- <-; cbn; lia).
      assert (1 <= slen x <= 2)%nat by (apply numeral12_iff in N; apply N). destruct x; [cbn in *; lia|].
      rewrite slen_app. destruct p; cbn [append sempty orb]; apply Nat.ltb_ge; lia. }
    rewrite L. apply whole_miles, miles_remark in W. rewrite W. reflexivity.
Qed.
Lemma fraction_append : forall g w n g', Distance_isReported (vi_vis g) = false ->
  (Vis_appendFraction g w n = Ok (Some g') <-> exists d, Broken_miles w d /\ g' = Vis_setInc (Vis_setVis g d) n).
Proof.
  intros g w n g' R. unfold Vis_appendFraction. rewrite R. split.
  - intros H. destruct (has_value (sfind "/" w 0)) eqn:F; [|discriminate H]. apply slash_split in F. cbn [negb] in H.
    destruct (Distance_fromMileString w true) as [[d|]|] eqn:M; try discriminate H. injection H as <-. apply miles_remark in M.
    exists d. split; [|reflexivity]. split; assumption.
  - intros (d & [M (a & b & ->)] & ->). rewrite has_slash. apply miles_remark in M. cbn [negb]. rewrite M. reflexivity.
Qed.
Lemma miles_bound : forall e s d, Miles e s d -> e = "" \/ e = "SM" -> exists m k, d = mkDist m (Some k) STATUTE_MILES /\ (k <= 990000)%N /\ m <> DM_DISTANT /\ m <> DM_VICINITY.
Proof.
  intros e s d M E. assert (exists remark, Distance_fromMileString s remark = Ok (Some d)) as (remark & H).
  { destruct E as [-> | ->]; [exists true|exists false]; apply miles_words; left; exact M. }
  destruct M as (p & m & body & w & n & q & k & _ & P & _ & -> & _). exists m, k. split; [reflexivity|]. split; [exact (mile_bound _ _ _ _ H eq_refl)|].
  destruct P as [P|[P|[P|[]]]]; injection P as <- <-; split; discriminate.
Qed.
Lemma added : forall a b d e s s', Miles "" s a -> Miles e s' b -> e = "" \/ e = "SM" ->
  (Distance_fromIntegerAndFraction a b = Ok (Some d) <-> Added a b d).
Proof.
  intros a b d e s s' A B E. rewrite whole_and_fraction. unfold Added.
  destruct (miles_bound _ _ _ A (or_introl eq_refl)) as (m & x & -> & X & N1 & N2). destruct (miles_bound _ _ _ B E) as (m' & y & -> & Y & _ & _).
  split.
  - intros (m0 & a & b & E1 & E2 & _ & _ & Ha & Hb & ->). injection E1 as -> ->. injection E2 as -> ->. exists m0, a, b. repeat (split; [assumption || reflexivity|]).
    do 2 f_equal. unfold u32. apply N.mod_small. unfold two32. lia.
  - intros (m0 & a & b & E1 & E2 & Ha & Hb & ->). injection E1 as -> ->. injection E2 as -> ->. exists m0, a, b. repeat (split; [assumption || reflexivity|]).
    do 2 f_equal. unfold u32. symmetry. apply N.mod_small. unfold two32. lia.
Qed.
Lemma miles_reported : forall e s d, Miles e s d -> Distance_isReported d = true.
Proof. intros e s d (p & m & body & w & n & q & k & _ & _ & _ & -> & _). reflexivity. Qed.
Lemma fraction_add : forall g w n g' s, Miles "" s (vi_vis g) ->
  (Vis_appendFraction g w n = Ok (Some g') <-> exists b d, Broken_miles w b /\ Added (vi_vis g) b d /\ g' = Vis_setInc (Vis_setVis g d) n).
Proof.
  intros g w n g' s M. unfold Vis_appendFraction. rewrite (miles_reported _ _ _ M). split.
  - intros H. destruct (has_value (sfind "/" w 0)) eqn:F; [|discriminate H]. apply slash_split in F. cbn [negb] in H.
    destruct (Distance_fromMileString w true) as [[b|]|] eqn:E; try discriminate H. cbn [bind] in H. apply miles_remark in E.
    destruct (Distance_fromIntegerAndFraction (vi_vis g) b) as [[d|]|] eqn:A; try discriminate H. injection H as <-.
    apply (added _ _ _ _ _ _ M E (or_introl eq_refl)) in A. exists b, d. split; [split; assumption|auto].
  - intros (b & d & [E (x & y & ->)] & A & ->). rewrite has_slash. cbn [negb].
    apply (added _ _ _ _ _ _ M E (or_introl eq_refl)) in A. apply miles_remark in E. rewrite E. cbn [bind]. rewrite A. reflexivity.
Qed.
Lemma mile_fraction_add : forall g w n g' s, Miles "" s (vi_vis g) -> Vis_isVariable (vi_type g) = false ->
  (Vis_appendFractionToIncompleteInteger g w n = Ok (Some g') <-> exists b d, Miles "SM" w b /\ Added (vi_vis g) b d /\ g' = Vis_setInc (Vis_setVis g d) n).
Proof.
  intros g w n g' s M V. unfold Vis_appendFractionToIncompleteInteger, VisibilityGroup_visibility. rewrite V. split.
  - intros H. destruct (Distance_fromMileString w false) as [[b|]|] eqn:E; try discriminate H. cbn [bind] in H.
    destruct (Distance_fromIntegerAndFraction (vi_vis g) b) as [[d|]|] eqn:A; try discriminate H. injection H as <-.
    apply miles_words in E. destruct E as [E|(_ & -> & ->)].
    + apply (added _ _ _ _ _ _ M E (or_intror eq_refl)) in A. eauto.
    + apply whole_and_fraction in A. destruct A as (? & ? & ? & _ & A & _). discriminate A.
  - intros (b & d & E & A & ->). apply (added _ _ _ _ _ _ M E (or_intror eq_refl)) in A.
    rewrite (proj2 (miles_words w false b)) by auto. cbn [bind]. rewrite A. reflexivity.
Qed.
Lemma lang_has : forall c r s, cls_all (fun x => negb (Ascii.eqb c x)) r = true -> Lang r s -> has c s = false.
Proof.
  intros c r s C L. pose proof (lang_cls_all _ _ _ L C) as X. clear -X. induction s as [|x s IH]; [reflexivity|]. cbn in *.
  apply andb_prop in X. destruct X as [X Y]. rewrite (IH Y). destruct (Ascii.eqb c x); [discriminate X|reflexivity].
Qed.
Lemma var_split : forall w k, sfind "V" w 0 = Some k -> exists a b, w = a ++ "V" ++ b /\ has "V" a = false /\ k = slen a.
Proof.
  intros w k F. unfold sfind in F. rewrite sdrop_0 in F. apply sfind0_inv in F. destruct F as (a & b & E & H & ->). exists a, b. auto.
Qed.
Lemma var_find : forall a b, has "V" a = false -> sfind "V" (a ++ "V" ++ b) 0 = Some (slen a).
Proof. intros a b H. unfold sfind. rewrite sdrop_0, (sfind0_app _ _ _ _ H). cbn. rewrite Nat.add_0_r. reflexivity. Qed.
Lemma var_before : forall a b, substr (a ++ "V" ++ b) 0 (slen a) = Ok a.
Proof. intros a b. unfold substr. cbn [Nat.leb]. rewrite substring0_app. reflexivity. Qed.
Lemma var_after : forall a b, substr_from (a ++ "V" ++ b) (slen a + 1) = Ok b.
Proof.
  intros a b. unfold substr_from, substr. rewrite !slen_app. change (slen "V") with 1%nat.
  rewrite (proj2 (Nat.leb_le _ _)) by lia. f_equal. rewrite substring_sdrop, sdrop_add, sdrop_app. cbn [append sdrop].
  assert (X : forall s n, (slen s <= n)%nat -> substring 0 n s = s).
  { clear. induction s as [|c s IH]; intros [|n] L; try reflexivity; cbn in *; try lia. f_equal. apply IH. slia. }
  apply X. lia.
Qed.
Lemma var_slash : forall a b, has_value (sfind "/" (a ++ "V" ++ b) (slen a)) = has "/" b.
Proof.
  intros a b. rewrite sfind_mid. cbn [append sfind0 Ascii.eqb Bool.eqb].
  destruct (sfind0 "/" b _) eqn:F.
  - apply sfind0_inv in F. destruct F as (x & y & -> & _). rewrite has_app. cbn. rewrite Bool.orb_true_r. reflexivity.
  - apply sfind_has in F. rewrite F. reflexivity.
Qed.
Definition low_end (g : VisibilityGroup) (min v : Distance) : Prop :=
  Distance_isReported (vi_vis g) = false /\ v = min \/ Distance_isReported (vi_vis g) = true /\ Added (vi_vis g) min v.
Lemma variable_append : forall g w n m g',
  (Distance_isReported (vi_vis g) = false \/ exists s, Miles "" s (vi_vis g)) ->
  (Vis_appendVariable g w n m = Ok (Some g') <-> exists a b min max v, w = a ++ "V" ++ b /\ Miles "" a min /\ Miles "" b max /\ low_end g min v
    /\ g' = Vis_setInc (Vis_setType (Vis_setVisMax (Vis_setVis g v) max) (Vis_makeVariable (vi_type g))) (if has "/" b then m else n)).
Proof.
  intros g w n m g' R. unfold Vis_appendVariable. split.
  - intros H. destruct (sfind "V" w 0) as [k|] eqn:F; [|discriminate H]. apply var_split in F. destruct F as (a & b & -> & V & ->).
    destruct (_ || _); [discriminate H|]. rewrite var_before, var_after, var_slash in H. cbn [bind] in H.
    destruct (Distance_fromMileString a true) as [[min|]|] eqn:A; try discriminate H. cbn [bind] in H.
    destruct (Distance_fromMileString b true) as [[max|]|] eqn:B; try discriminate H. cbn [bind] in H.
    apply miles_remark in A, B. exists a, b, min, max.
    destruct (Distance_isReported (vi_vis g)) eqn:Q.
    + destruct (Distance_fromIntegerAndFraction (vi_vis g) min) as [[v|]|] eqn:X; try discriminate H. cbn [bind] in H. injection H as <-.
      destruct R as [R|(s & R)]; [discriminate R|]. apply (added _ _ _ _ _ _ R A (or_introl eq_refl)) in X.
      exists v. repeat (split; [assumption || reflexivity|]). split; [right; auto|]. destruct (has "/" b); reflexivity.
    + cbn [bind] in H. injection H as <-. exists min. repeat (split; [assumption || reflexivity|]). split; [left; auto|]. destruct (has "/" b); reflexivity.
  - intros (a & b & min & max & v & -> & A & B & L & ->).
    pose proof (lang_has "V" re_miles a eq_refl (miles_lang _ _ A)) as V. rewrite (var_find _ _ V).
    assert (Z : Nat.eqb (slen a) 0 || Nat.eqb (slen a) (slen (a ++ "V" ++ b)) = false).
    { rewrite slen_app. change (slen ("V" ++ b)) with (1 + slen b)%nat. destruct a as [|c a].
      - apply miles_lang, is_match_lang in A. discriminate A.
      - apply Bool.orb_false_intro; apply Nat.eqb_neq; slia. }
    rewrite Z, var_before, var_after, var_slash. cbn [bind].
    rewrite (proj2 (miles_remark a min) A). cbn [bind]. rewrite (proj2 (miles_remark b max) B). cbn [bind].
    destruct L as [[Q ->]|[Q X]]; rewrite Q.
    + cbn [bind]. destruct (has "/" b); reflexivity.
    + destruct R as [R|(s & R)]; [congruence|]. rewrite (proj2 (added _ _ _ _ _ _ R A (or_introl eq_refl)) X). cbn [bind]. destruct (has "/" b); reflexivity.
Qed.
Lemma fraction_words : forall w x y, fractionStrToUint w 0 (slen w) = Ok (Some (x, y)) <->
  exists s1 s2, w = s1 ++ "/" ++ s2 /\ short_numeral s1 x /\ short_numeral s2 y.
Proof. intros w x y. pose proof (fraction_parse "" w "" x y) as P. rewrite empty_app in P. exact P. Qed.
Lemma short_bound : forall s v, short_numeral s v -> (v < 100)%N.
Proof. intros s v [N|N]; apply numeral_bound in N; cbn in N; lia. Qed.
Lemma max_fraction_append : forall g w n g' b, Whole_miles b (vi_visMax g) ->
  (Vis_appendVariableMaxFraction g w n = Ok (Some g') <-> exists x d, Fraction w x /\ Added (vi_visMax g) x d /\ g' = Vis_setInc (Vis_setVisMax g d) n).
Proof.
  intros g w n g' b W. unfold Vis_appendVariableMaxFraction.
  destruct W as (p & m & t & v & -> & P & N & E). rewrite E. apply short_bound in N.
  assert (Bv : (10000 * v <= 990000)%N) by lia. remember (10000 * v)%N as V eqn:EV. clear EV E N.
  assert (A : forall x y, (0 < y)%N -> (x < 100)%N -> forall d, Distance_fromIntegerAndFraction (mkDist m (Some V) STATUTE_MILES) (Distance_ofFraction x y) = Ok (Some d)
     <-> Added (mkDist m (Some V) STATUTE_MILES) (mkDist DM_NONE (Some (10000 * x / y)%N) STATUTE_MILES) d).
  { intros x y Py Bx d. unfold Distance_ofFraction, statuteMileFactor. destruct (N.eqb_spec y 0) as [->|_]; [lia|].
    assert (U : u32 (x * 10000) = (10000 * x)%N) by (unfold u32; rewrite N.mod_small by (unfold two32; lia); lia). rewrite U.
    assert (Bk : (10000 * x / y <= 990000)%N) by (apply N.div_le_upper_bound; nia).
    remember (10000 * x / y)%N as K eqn:EK. clear EK U.
    rewrite whole_and_fraction. unfold Added. split.
    - intros (m0 & a & c & E1 & E2 & _ & _ & Ha & Hb & ->). injection E1 as -> <-. injection E2 as <-. exists m0. eexists. eexists. repeat (split; [eassumption || reflexivity|]).
      do 2 f_equal. unfold u32. apply N.mod_small. unfold two32. lia.
    - intros (m0 & a & c & E1 & E2 & Ha & Hb & ->). injection E1 as -> <-. injection E2 as <-. exists m0. eexists. eexists.
      split; [reflexivity|]. split; [reflexivity|]. split; [|split; [|split; [exact Ha|split; [exact Hb|]]]].
      + destruct P as [P|[P|[P|[]]]]; injection P as <- <-; discriminate.
      + destruct P as [P|[P|[P|[]]]]; injection P as <- <-; discriminate.
      + do 2 f_equal. unfold u32. symmetry. apply N.mod_small. unfold two32. lia. }
  assert (Fr : forall x y k, (0 < y)%N -> ((k * y <= 10000 * x < (k + 1) * y)%N <-> k = (10000 * x / y)%N)).
  { intros x y k Py. split.
    - intros B. apply (N.div_unique _ _ _ (10000 * x - k * y)); lia.
    - intros ->. pose proof (N.div_mod (10000 * x) y). pose proof (N.mod_lt (10000 * x) y). nia. }
  split.
  - intros H. destruct (fractionStrToUint w 0 (slen w)) as [[[x y]|]|] eqn:F; try discriminate H. cbn [bind fst snd] in H.
    apply fraction_words in F. destruct F as (s1 & s2 & -> & N1 & N2).
    destruct (N.eq_dec y 0) as [->|Y]; [discriminate H|]. assert (Py : (0 < y)%N) by lia.
    destruct (negb _) in H; [discriminate H|].
    destruct (Distance_fromIntegerAndFraction _ _) as [[d|]|] eqn:X in H; try discriminate H. injection H as <-.
    apply (A x y Py (short_bound _ _ N1)) in X. eexists. exists d. split; [|split; [exact X|reflexivity]].
    exists s1, s2, x, y, (10000 * x / y)%N. repeat (split; [assumption || reflexivity|]). apply Fr; [exact Py|reflexivity].
  - intros (x & d & (s1 & s2 & k & q & f & -> & N1 & N2 & -> & B) & X & ->).
    assert (Py : (0 < q)%N) by lia. apply (Fr k q f Py) in B. subst f.
    rewrite (proj2 (fraction_words _ k q)) by eauto. cbn [bind fst snd].
    apply (A k q Py (short_bound _ _ N1)) in X.
    assert (Vv : Distance_isValue (Distance_ofFraction k q) = true) by (unfold Distance_ofFraction; destruct (N.eqb_spec q 0); [lia|reflexivity]).
    rewrite Vv. cbn [negb]. rewrite X. reflexivity.
Qed.
Lemma meters_append : forall g w n g', Vis_appendMeters g w n = Ok (Some g') <-> exists d, Meters_number w d /\ g' = Vis_setInc (Vis_setVis g d) n.
Proof.
  intros g w n g'. unfold Vis_appendMeters. split.
  - intros H. destruct (Distance_fromMeterString w) as [[d|]|] eqn:M; try discriminate H. cbn [bind] in H. apply meters_text in M.
    destruct (Distance_isReported d) eqn:R; [|discriminate H]. injection H as <-. exists d. split; [|reflexivity]. split; [exact M|].
    intros ->. destruct M as [[_ ->]|[[M _]|(v & [_ M] & _)]]; [discriminate R|discriminate M|discriminate M].
  - intros (d & [M N] & ->). rewrite (proj2 (meters_text w d) M). cbn [bind].
    assert (R : Distance_isReported d = true) by (destruct M as [[M _]|[[_ ->]|(v & _ & _ & ->)]]; [contradiction|reflexivity|reflexivity]). rewrite R. reflexivity.
Qed.
Lemma meters_lang : forall w d, Meters_number w d -> Lang re_meters w.
Proof.
  intros w d [[[M _]|[[-> _]|(v & N & _)]] X]; [contradiction|apply closed_lang; reflexivity|apply (numeral_lang 4 w v); [exact N|reflexivity]].
Qed.
Lemma lang_meters : forall w, Lang re_meters w -> exists d, Meters_number w d.
Proof.
  intros w L. assert (A : accepted (Distance_fromMeterString w)).
  { apply meter_format. apply L_alt1, L_grp. exact L. }
  destruct A as (d & A). apply meters_text in A. exists d. split; [exact A|]. intros ->. apply is_match_lang in L. discriminate L.
Qed.
Lemma variable_meters_append : forall g w n g', Vis_appendVariableMeters g w n = Ok (Some g') <-> exists a b min max, w = a ++ "V" ++ b
  /\ Meters_number a min /\ Meters_number b max
  /\ g' = Vis_setInc (Vis_setType (Vis_setVisMax (Vis_setVis g min) max) (Vis_makeVariable (vi_type g))) n.
Proof.
  intros g w n g'. unfold Vis_appendVariableMeters.
  assert (Rep : forall a d, Meters_number a d -> Distance_isReported d = true) by (intros a d [[[M _]|[[_ ->]|(v & _ & _ & ->)]] X]; [contradiction|reflexivity|reflexivity]).
  split.
  - intros H. destruct (regex_match rgx_varmeters w) as [m|] eqn:R; [|discriminate H]. apply regex_match_captures in R. unfold rgx_varmeters in R. captures R.
    in_words L0 X. destruct X as [<-|[]]. cbn [mstr find app fst snd Nat.eqb] in H.
    destruct (lang_meters _ L) as (min & A). destruct (lang_meters _ L1) as (max & B).
    rewrite (proj2 (meters_text _ _) (proj1 A)) in H. cbn [bind] in H. rewrite (proj2 (meters_text _ _) (proj1 B)) in H. cbn [bind] in H.
    rewrite (Rep _ _ A), (Rep _ _ B) in H. injection H as <-. exists p, q0, min, max. auto.
  - intros (a & b & min & max & -> & A & B & ->). pose proof (meters_lang _ _ A) as LA. pose proof (meters_lang _ _ B) as LB.
    assert (R : regex_match rgx_varmeters (a ++ "V" ++ b) = Some [(2, b); (1, a)]%nat) by cap_match.
    rewrite R. cbn [mstr find fst snd Nat.eqb].
    rewrite (proj2 (meters_text _ _) (proj1 A)). cbn [bind]. rewrite (proj2 (meters_text _ _) (proj1 B)). cbn [bind]. rewrite (Rep _ _ A), (Rep _ _ B). reflexivity.
Qed.
Lemma runway_append : forall g w n g', Vis_appendRunway g w n = Ok (Some g') <-> exists r, Runway_text true w r /\
  g' = Vis_setInc (Vis_setType (Vis_setRw g (Some r)) (match vi_type g with Vi_PREVAILING => Vi_RUNWAY | Vi_VARIABLE_PREVAILING => Vi_VARIABLE_RUNWAY | t => t end)) n.
Proof.
  intros g w n g'. unfold Vis_appendRunway. split.
  - intros H. destruct (Runway_fromString w true) as [[r|]|] eqn:R; try discriminate H. apply runway_text in R. exists r. split; [exact R|].
    injection H as <-. destruct g as [[] ? ? ? ? ? ? ? ?]; reflexivity.
  - intros (r & R & ->). rewrite (proj2 (runway_text w true r) R). destruct g as [[] ? ? ? ? ? ? ? ?]; reflexivity.
Qed.
Lemma runway_lang : forall w r, Runway_text true w r -> Lang re_runway w.
Proof.
  intros w r (p & d & x & -> & P & N & X). destruct N as [L D]. explode.
  pose proof (numeral_shape 2 (String c (String c0 "")) _ (conj eq_refl D)) as F. unfold fits_shape in F. cbn in F.
  apply andb_prop in F. destruct F as [F1 F]. apply andb_prop in F. destruct F as [F2 _].
  assert (T : Lang (RSeq (RCls digit_cls) (RSeq (RCls digit_cls) (ROpt (RCls [("R", "R"); ("L", "L"); ("C", "C")]%char)))) (String c (String c0 "") ++ x)).
  { change (String c (String c0 "") ++ x) with (String c "" ++ String c0 "" ++ x). apply L_seq; [apply L_cls; exact F1|]. apply L_seq; [apply L_cls; exact F2|].
    destruct X as [X|[X|[X|[X|[]]]]]; injection X; intros; subst; apply closed_lang; reflexivity. }
  unfold re_runway. destruct P as [-> |[-> _]].
  - apply L_seq; [apply closed_lang; reflexivity|]. change (String c (String c0 "") ++ x) with ("" ++ (String c (String c0 "") ++ x)). apply L_seq; [constructor|exact T].
  - change ("RWY" ++ String c (String c0 "") ++ x) with ("R" ++ "WY" ++ (String c (String c0 "") ++ x)). apply L_seq; [apply closed_lang; reflexivity|].
    apply L_seq; [apply closed_lang; reflexivity|exact T].
Qed.
Definition placed (g : VisibilityGroup) (p : place) (n : ViInc) : VisibilityGroup :=
  match p with
  | Towards d => Vis_setInc (Vis_setType (Vis_setDir g (Some d)) (match vi_type g with Vi_PREVAILING => Vi_DIRECTIONAL | t => t end)) n
  | Sector a b => Vis_setInc (Vis_setType (Vis_setSector g a b) (match vi_type g with Vi_PREVAILING => Vi_SECTOR | t => t end)) n
  | _ => g
  end.
Lemma place_cardinal : forall w d, Direction_fromCardinalString w false false = Some d -> Place_text w (Towards d).
Proof.
  intros w d H. pose proof H as H0. apply cardinal_names in H. destruct H as [(o & I & _)|[[-> _]|[(_ & X & _)|[(_ & X & _)|(_ & X & _)]]]]; try discriminate X.
  - rewrite (octant_read _ _ _ _ I) in H0. injection H0 as <-. constructor. exact I.
  - injection H0 as <-. constructor.
Qed.
Lemma place_append : forall g w n g', Vis_appendDirection g w n = Ok (Some g') <-> exists p, Place_text w p /\ g' = placed g p n.
Proof.
  intros g w n g'. unfold Vis_appendDirection. split.
  - intros H. destruct (Direction_fromCardinalString w false false) as [d|] eqn:D.
    + apply place_cardinal in D. exists (Towards d). split; [exact D|]. injection H as <-. destruct g as [[] ? ? ? ? ? ? ? ?]; reflexivity.
    + destruct (Direction_fromSectorString w) as [[a b]|] eqn:S; [|discriminate H].
      apply sector_parse in S. destruct S as (v & m & x & i & j & -> & _ & _ & I & B & J & -> & ->).
      eexists. split; [eapply Place_sector; eassumption|]. injection H as <-. destruct g as [[] ? ? ? ? ? ? ? ?]; reflexivity.
  - intros (p & P & ->). destruct P as [w o I| |v m x o o' I B J].
    + rewrite (octant_read _ _ _ _ I). destruct g as [[] ? ? ? ? ? ? ? ?]; reflexivity.
    + destruct g as [[] ? ? ? ? ? ? ? ?]; reflexivity.
    + destruct (Direction_fromCardinalString (v ++ m ++ "-" ++ x) false false) as [d|] eqn:D.
      { exfalso. apply cardinal_names in D. assert (X : forall s, In s ["N"; "NE"; "E"; "SE"; "S"; "SW"; "W"; "NW"; "NDV"; "OHD"; "ALQDS"; "UNKNOWN"] -> s <> v ++ m ++ "-" ++ x).
        { clear. intros s Hs E. assert (has "-" s = true) by (rewrite E, !has_app; cbn; rewrite !Bool.orb_true_r; reflexivity).
          cbn [In] in Hs. repeat (destruct Hs as [<-|Hs]; [discriminate H|]). contradiction. }
        destruct D as [(y & Iy & _)|[[D _]|[(D & _)|[(D & _)|(D & _)]]]]; try (eapply X; [|symmetry; exact D]; cbn; tauto).
        cbn [octant_names In] in Iy. repeat (destruct Iy as [Iy|Iy]; [injection Iy as E _; eapply X; [|exact E]; cbn; tauto|]). contradiction. }
      assert (Oc : forall s y, In (s, y) octant_names -> exists i, (i < 8)%nat /\ y = octant i).
      { clear. intros s y H. cbn [octant_names In] in H.
        destruct H as [H|H]; [injection H as <- <-; exists 0%nat; split; [lia|reflexivity]|].
        destruct H as [H|H]; [injection H as <- <-; exists 1%nat; split; [lia|reflexivity]|].
        destruct H as [H|H]; [injection H as <- <-; exists 2%nat; split; [lia|reflexivity]|].
        destruct H as [H|H]; [injection H as <- <-; exists 3%nat; split; [lia|reflexivity]|].
        destruct H as [H|H]; [injection H as <- <-; exists 4%nat; split; [lia|reflexivity]|].
        destruct H as [H|H]; [injection H as <- <-; exists 5%nat; split; [lia|reflexivity]|].
        destruct H as [H|H]; [injection H as <- <-; exists 6%nat; split; [lia|reflexivity]|].
        destruct H as [H|H]; [injection H as <- <-; exists 7%nat; split; [lia|reflexivity]|contradiction]. }
      destruct (Oc _ _ I) as (i & Li & ->). destruct (Oc _ _ J) as (j & Lj & ->).
      rewrite (proj2 (sector_parse (v ++ m ++ "-" ++ x) (towards (octant i)) (towards (octant j)))) by (exists v, m, x, i, j; auto 10).
      destruct g as [[] ? ? ? ? ? ? ? ?]; reflexivity.
Qed.
(** A word for a place begins with the letter of a direction. *)
Lemma place_head : forall w p, Place_text w p -> exists c t, w = String c t /\ in_cls c [("N", "N"); ("S", "S"); ("W", "W"); ("E", "E")]%char = true.
Proof.
  assert (Oc : forall s o t, In (s, o) octant_names -> exists c u, s ++ t = String c u /\ in_cls c [("N", "N"); ("S", "S"); ("W", "W"); ("E", "E")]%char = true).
  { intros s o t H. cbn [octant_names In] in H. repeat (destruct H as [H|H]; [injection H as <- <-; eexists; eexists; split; reflexivity|]). contradiction. }
  intros w p [x o I| |v m x o o' I B J]; [destruct (Oc _ _ "" I) as (c & t & E & C); rewrite empty_app in E; eauto|do 2 eexists; split; reflexivity|apply (Oc _ _ _ I)].
Qed.
