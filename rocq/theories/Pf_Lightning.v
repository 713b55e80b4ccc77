(** What the words of lightning groups say. *)
From Coq Require Import Lia.
From Verif Require Import Prim Lib Regex Float Values Weather Groups1 Groups2 Groups3 Groups4 Parser SpecText SpecRegex SpecDirection SpecNumeral
  SpecReach SpecBuilt SpecAppend SpecAssembled SpecNearby.
From Verif Require Import Pf_Ok Pf_Regex Pf_Caps Pf_Kinds Pf_Decode Pf_Values6 Pf_Values9 Pf_Built Pf_WeatherWords Pf_MinMax Pf_Refuse Pf_Waits Pf_Assembled Pf_Nearby.
Local Open Scope string_scope.

Definition add_types (ts : list string) : LightningGroup := fold_left Lightning_addType ts Lightning_default.
Lemma two_letters : forall a b p t, substring (slen p) 2 (p ++ String a (String b t)) = String a (String b "").
Proof. intros a b p t. induction p as [|c p IH]; cbn [append slen String.length substring]; [destruct t; reflexivity|exact IH]. Qed.
Lemma one_letter : forall a p, substring (slen p) 2 (p ++ String a "") = String a "".
Proof. intros a p. induction p as [|c p IH]; cbn [append slen String.length substring]; [reflexivity|exact IH]. Qed.
Lemma type_loop : forall n t p g, Lightning_typeLoop (p ++ t) n (slen p) g = Ok (fold_left Lightning_addType (firstn n (pieces t)) g).
Proof.
  induction n as [|n IH]; intros t p g; [reflexivity|]. cbn [Lightning_typeLoop].
  rewrite slen_app. destruct t as [|a [|b t]].
  - replace (Nat.ltb (slen p) (slen p + slen "")) with false by (symmetry; apply Nat.ltb_ge; cbn; lia). reflexivity.
  - replace (Nat.ltb (slen p) (slen p + slen (String a ""))) with true by (symmetry; apply Nat.ltb_lt; cbn; lia).
    unfold substr. rewrite slen_app, one_letter. replace (Nat.leb (slen p) (slen p + slen (String a ""))) with true by (symmetry; apply Nat.leb_le; lia).
    cbn [bind pieces firstn fold_left]. rewrite firstn_nil. cbn [fold_left].
    destruct n; [reflexivity|]. cbn [Lightning_typeLoop]. rewrite slen_app.
    replace (Nat.ltb (slen p + 2) (slen p + slen (String a ""))) with false by (symmetry; apply Nat.ltb_ge; cbn; lia). reflexivity.
  - replace (Nat.ltb (slen p) (slen p + slen (String a (String b t)))) with true by (symmetry; apply Nat.ltb_lt; cbn; lia).
    unfold substr. rewrite slen_app, two_letters. replace (Nat.leb (slen p) (slen p + slen (String a (String b t)))) with true by (symmetry; apply Nat.leb_le; lia).
    cbn [bind pieces firstn fold_left].
    specialize (IH t (p ++ String a (String b "")) (Lightning_addType g (String a (String b "")))).
    rewrite sapp_assoc, slen_app in IH. exact IH.
Qed.
Lemma ltg_parse : forall s g, Lightning_fromLtgGroup s = Ok (Some g) <-> exists t, s = "LTG" ++ t /\ g = add_types (firstn 6 (pieces t)).
Proof.
  intros s g. split.
  - intros H. unfold Lightning_fromLtgGroup in H.
    destruct (seqb s "LTG") eqn:E; [apply seqb_eq in E; subst s; injection H as <-; exists ""; split; reflexivity|].
    destruct (Nat.ltb (slen s) 3) eqn:L; [discriminate H|].
    apply bind_ok in H. destruct H as (p & P & H). destruct (seqb p "LTG") eqn:Q; [|discriminate H]. cbn [negb] in H. apply seqb_eq in Q. subst p.
    destruct s as [|a [|b [|c s]]]; try discriminate L. unfold substr in P. cbn in P. destruct s as [|e s]; cbn in P; injection P as -> -> ->.
    + discriminate E.
    + apply bind_ok in H. destruct H as (k & K & H). injection H as <-. exists (String e s). split; [reflexivity|].
      pose proof (type_loop 6 (String e s) "LTG" Lightning_default) as X. change ("LTG" ++ String e s) with (String "L" (String "T" (String "G" (String e s)))) in X.
      change (slen "LTG") with 3%nat in X. rewrite K in X. injection X as ->. reflexivity.
  - intros (t & -> & ->). unfold Lightning_fromLtgGroup.
    destruct (seqb ("LTG" ++ t) "LTG") eqn:E.
    { apply seqb_eq in E. destruct t; [reflexivity|discriminate E]. }
    change (Nat.ltb (slen ("LTG" ++ t)) 3) with false.
    assert (P : substr ("LTG" ++ t) 0 3 = Ok "LTG") by (unfold substr; cbn; destruct t; reflexivity).
    rewrite P. cbn [bind]. change (negb (seqb "LTG" "LTG")) with false. cbn [bind].
    pose proof (type_loop 6 t "LTG" Lightning_default) as X. change (slen "LTG") with 3%nat in X. rewrite X. reflexivity.
Qed.
Lemma add_types_rest : forall ts g, let k := fold_left Lightning_addType ts g in
  lt_freq k = lt_freq g /\ lt_dist k = lt_dist g /\ lt_dir1from k = lt_dir1from g /\ lt_dir1to k = lt_dir1to g
  /\ lt_dir2from k = lt_dir2from g /\ lt_dir2to k = lt_dir2to g /\ lt_incomplete k = lt_incomplete g.
Proof. induction ts as [|t ts IH]; intros g; cbn [fold_left]; [auto 10|]. cbv zeta. destruct (IH (Lightning_addType g t)) as (A & B & C & D & E & F & G). auto 10. Qed.
Lemma fold_tells : forall ts g old, tells_types g old -> tells_types (fold_left Lightning_addType ts g) (old ++ ts).
Proof.
  induction ts as [|t ts IH]; intros g old H; cbn [fold_left]; [rewrite app_nil_r; exact H|].
  replace (old ++ t :: ts)%list with ((old ++ [t]) ++ ts)%list by (rewrite <- app_assoc; reflexivity). apply IH.
  destruct H as (A & B & C & D & E). unfold tells_types, Lightning_addType. cbn.
  rewrite !in_app_iff, !orb_true_iff, A, B, C, D, E. cbn [In].
  assert (X : forall k, seqb t k = true <-> t = k \/ False) by (intros k; split; [intros Q; left; apply seqb_eq; exact Q|intros [Q|[]]; subst k; apply seqb_refl]).
  rewrite !X. repeat match goal with |- _ /\ _ => split; [tauto|] end. split.
  - intros [(u & U & V)|U]; [exists u; rewrite in_app_iff; auto|].
    exists t. rewrite in_app_iff. split; [right; left; reflexivity|]. intros K. cbn [known_types In] in K.
    apply negb_true_iff in U. repeat match type of K with _ \/ _ => destruct K as [<-|K]; [discriminate U|] end. contradiction.
  - intros (u & U & V). rewrite in_app_iff in U. cbn [In] in U. destruct U as [U|[<-|[]]]; [left; eauto|right].
    apply negb_true_iff. rewrite !orb_false_iff. cbn [known_types In] in V.
    repeat split; (destruct (seqb t _) eqn:Q; [apply seqb_eq in Q; subst t; exfalso; tauto|reflexivity]).
Qed.
Lemma types_told : forall ts, tells_types (add_types ts) ts.
Proof.
  intros ts. apply (fold_tells ts Lightning_default []). unfold tells_types. cbn. repeat split; try discriminate; try contradiction.
  intros (t & [] & _).
Qed.

(** ** Words *)
Inductive placed : list string -> option Direction * option Direction -> Prop :=
| placed_no : placed [] (None, None)
| placed_at : forall w p, place w = Some p -> placed [w] p.
Lemma placed_maybe : forall b p, placed b p -> In p maybe.
Proof. intros b p [|w q H]; [left; reflexivity|right; exact (place_area _ _ H)]. Qed.
Lemma placed_bearing : forall b p l, placed b p -> vector p = Ok l -> Bearing_opt b l.
Proof. intros b p l [|w q H] V; [cbn in V; injection V as <-; constructor|]. constructor. apply bearing_place. eauto. Qed.
Lemma bearing_placed : forall b l, Bearing_opt b l -> exists p, placed b p /\ vector p = Ok l.
Proof.
  intros b l [|w l' H]; [exists (None, None); split; [constructor|reflexivity]|].
  apply bearing_place in H. destruct H as (p & P & V). exists p. split; [constructor; exact P|exact V].
Qed.
Definition strike (f : LtFreq) (types : string) (d : Distance) (p q : option Direction * option Direction) : LightningGroup :=
  let k := add_types (firstn 6 (pieces types)) in
  mkLightning f d (lt_cloudGround k) (lt_inCloud k) (lt_cloudCloud k) (lt_cloudAir k) (lt_unknown k) (fst p) (snd p) (fst q) (snd q) false.
Lemma strike_first : forall f t, Lightning_setFreq (add_types (firstn 6 (pieces t))) f = strike f t Distance_default (None, None) (None, None).
Proof.
  intros f t. unfold strike, Lightning_setFreq, add_types.
  destruct (add_types_rest (firstn 6 (pieces t)) Lightning_default) as (A & B & C & D & E & F & G). cbv zeta in *.
  rewrite B, C, D, E, F, G. reflexivity.
Qed.
Inductive lightning_state : list string -> LightningGroup -> Prop :=
| state_freq : forall w f, In (w, f) frequencies -> lightning_state [w] (Lightning_ofFreq f)
| state_ltg : forall fw f types dw d b1 p1 ands b2 p2,
    fw = [] /\ f = Lt_NONE \/ (exists w, fw = [w] /\ In (w, f) frequencies) ->
    How_far dw d -> placed b1 p1 -> (forall w, In w ands -> w = "AND") -> (ands = [] \/ b1 <> []) ->
    placed b2 p2 -> (b2 = [] \/ b1 <> []) ->
    lightning_state (fw ++ ["LTG" ++ types] ++ dw ++ b1 ++ ands ++ b2) (strike f types d p1 p2).
Lemma strike_tells : forall f t d b1 p1 b2 p2, placed b1 p1 -> placed b2 p2 ->
  exists l1 l2 l, Bearing_opt b1 l1 /\ Bearing_opt b2 l2 /\ Together l1 l2 l /\ tells (strike f t d p1 p2) (Strikes f (firstn 6 (pieces t)) d l).
Proof.
  intros f t d b1 p1 b2 p2 P Q.
  destruct (areas_together p1 p2 (placed_maybe _ _ P) (placed_maybe _ _ Q)) as (l1 & l2 & l & V1 & V2 & V & T & _ & _).
  exists l1, l2, l. split; [exact (placed_bearing _ _ _ P V1)|]. split; [exact (placed_bearing _ _ _ Q V2)|]. split; [exact T|].
  split; [reflexivity|]. split; [|split; [reflexivity|exact V]]. exact (types_told _).
Qed.
Lemma lightning_first : forall part w md g, LightningGroup_parse w part md = Ok (Some g) -> part = RP_RMK /\ lightning_state [w] g.
Proof.
  intros part w md g H. unfold LightningGroup_parse in H.
  destruct (is_part part RP_RMK) eqn:P; [|discriminate H]. apply is_part_true in P. split; [exact P|]. cbn [negb] in H.
  destruct (seqb w "OCNL") eqn:E1; [apply seqb_eq in E1; injection H as <-; subst w; apply state_freq; cbn; auto|].
  destruct (seqb w "FRQ") eqn:E2; [apply seqb_eq in E2; injection H as <-; subst w; apply state_freq; cbn; auto|].
  destruct (seqb w "CONS") eqn:E3; [apply seqb_eq in E3; injection H as <-; subst w; apply state_freq; cbn; auto|].
  apply ltg_parse in H. destruct H as (t & -> & ->).
  assert (E : add_types (firstn 6 (pieces t)) = strike Lt_NONE t Distance_default (None, None) (None, None)).
  { rewrite <- strike_first. destruct (add_types_rest (firstn 6 (pieces t)) Lightning_default) as (A & _). unfold add_types in *. cbv zeta in A.
    destruct (fold_left Lightning_addType (firstn 6 (pieces t)) Lightning_default). cbn in *. subst. reflexivity. }
  rewrite E. apply (state_ltg [] Lt_NONE t [] _ [] _ [] [] _); auto; try constructor. intros w [].
Qed.
Lemma lightning_next : forall ws w part md g g' a, lightning_state ws g -> LightningGroup_append g w part md = Ok (g', a) ->
  (a = APPENDED -> lightning_state (ws ++ [w]) g') /\ (a = NOT_APPENDED -> g' = g).
Proof.
  intros ws w part md g g' a S H. unfold LightningGroup_append in H. destruct S as [v f F|fw f t dw d b1 p1 ands b2 p2 F D P1 A A1 P2 B1].
  - cbn [lt_incomplete Lightning_ofFreq] in H. apply bind_ok in H. destruct H as ([k|] & K & H); injection H as <- <-; [|split; discriminate].
    split; [intros _|discriminate]. apply ltg_parse in K. destruct K as (t & -> & ->). cbn [lt_freq Lightning_ofFreq]. rewrite strike_first.
    refine (state_ltg [v] f t [] _ [] _ [] [] _ (or_intror _) How_far_omitted placed_no _ (or_introl eq_refl) placed_no (or_introl eq_refl)); [exists v; auto|intros w []].
  - cbn [lt_incomplete strike] in H. unfold Lightning_isOmittedDir1, Lightning_isOmittedDir2 in H.
    cbn [lt_dir1from lt_dir1to lt_dir2from lt_dir2to strike Lightning_setDir1 Lightning_setDir2 Lightning_setDist] in H.
    assert (Pl : forall v p, place v = Some p -> fst p <> None).
    { intros v p X. unfold place in X. destruct (Direction_fromCardinalString v true false); [injection X as <-; discriminate|].
      destruct (Direction_fromSectorString v) as [[? ?]|]; [injection X as <-; discriminate|discriminate X]. }
    assert (R : forall Q : string -> option Direction -> option Direction -> LightningGroup,
      (match Direction_fromCardinalString w true false with
       | Some e => Ok (Q w (Some e) None, APPENDED)
       | None => match Direction_fromSectorString w with Some (x, y) => Ok (Q w (Some x) (Some y), APPENDED) | None => Ok (strike f t d p1 p2, NOT_APPENDED) end
       end = Ok (g', a)) -> (exists p, place w = Some p /\ a = APPENDED /\ g' = Q w (fst p) (snd p)) \/ a = NOT_APPENDED /\ g' = strike f t d p1 p2).
    { intros Q X. unfold place. destruct (Direction_fromCardinalString w true false) as [e|]; [injection X as <- <-; left; eexists; eauto|].
      destruct (Direction_fromSectorString w) as [[x y]|]; [injection X as <- <-; left; eexists; eauto|injection X as <- <-; auto]. }
    destruct P2 as [|v2 p2 H2].
    2:{ specialize (Pl _ _ H2). destruct (fst p2); [|congruence]. cbn [has_value negb andb] in H. injection H as <- <-. split; [discriminate|intros _; reflexivity]. }
    cbn [fst snd has_value negb andb] in H. destruct P1 as [|v1 p1 H1].
    + assert (ands = []) as -> by (destruct A1; congruence). cbn [fst snd has_value negb andb] in H.
      destruct (seqb w "DSNT") eqn:E1.
      { apply seqb_eq in E1. subst w. injection H as <- <-. split; [intros _|discriminate].
        rewrite !app_nil_r, <- !app_assoc. cbn [app]. 
        pose proof (state_ltg fw f t (dw ++ ["DSNT"]) _ [] _ [] [] _ F (How_far_said dw d "DSNT" Distance_makeDistant D ltac:(cbn; auto)) placed_no A A1 placed_no B1) as X.
        rewrite !app_nil_r in X. exact X. }
      destruct (seqb w "VC") eqn:E2.
      { apply seqb_eq in E2. subst w. injection H as <- <-. split; [intros _|discriminate].
        rewrite !app_nil_r, <- !app_assoc. cbn [app].
        pose proof (state_ltg fw f t (dw ++ ["VC"]) _ [] _ [] [] _ F (How_far_said dw d "VC" Distance_makeVicinity D ltac:(cbn; auto)) placed_no A A1 placed_no B1) as X.
        rewrite !app_nil_r in X. exact X. }
      apply (R (fun _ x y => strike f t d (x, y) (None, None))) in H. destruct H as [([x y] & Hp & -> & ->)|[-> ->]]; [|split; [discriminate|reflexivity]].
      split; [intros _|discriminate]. rewrite !app_nil_r, <- !app_assoc. cbn [app].
      pose proof (state_ltg fw f t dw d [w] (x, y) [] [] _ F D (placed_at _ _ Hp) A (or_introl eq_refl) placed_no (or_introl eq_refl)) as X.
      rewrite !app_nil_r in X. exact X.
    + specialize (Pl _ _ H1). destruct (fst p1) eqn:Ep; [|congruence]. cbn [has_value negb andb] in H.
      destruct (seqb w "AND") eqn:E1.
      { apply seqb_eq in E1. subst w. injection H as <- <-. split; [intros _|discriminate].
        rewrite !app_nil_r, <- !app_assoc. cbn [app].
        assert (A' : forall u, In u (ands ++ ["AND"])%list -> u = "AND") by (intros u Hu; apply in_app_iff in Hu; destruct Hu as [Hu|[<-|[]]]; [exact (A u Hu)|reflexivity]).
        assert (Ne : [v1] <> []) by discriminate.
        pose proof (state_ltg fw f t dw d [v1] p1 (ands ++ ["AND"])%list [] (None, None) F D (placed_at _ _ H1) A' (or_intror Ne) placed_no B1) as X.
        rewrite !app_nil_r in X. exact X. }
      rewrite <- Ep in *.
      apply (R (fun _ x y => strike f t d p1 (x, y))) in H. destruct H as [([x y] & Hp & -> & ->)|[-> ->]]; [|split; [discriminate|reflexivity]].
      split; [intros _|discriminate]. rewrite !app_nil_r, <- !app_assoc.
      assert (Ne : [v1] <> []) by discriminate.
      exact (state_ltg fw f t dw d [v1] p1 ands [w] (x, y) F D (placed_at _ _ H1) A (or_intror Ne) (placed_at _ _ Hp) (or_intror Ne)).
Qed.
(** ** Groups *)
Lemma assembled_lightning : forall part now ws g, Assembled part now ws (GLightning g) -> part = RP_RMK /\ lightning_state ws g.
Proof.
  intros part now ws g B.
  refine (assembled_kind part now (fun ws k => match k with GLightning x => part = RP_RMK /\ lightning_state ws x | _ => True end) _ _ ws (GLightning g) B).
  - intros w md [] _ P; try exact I. exact (lightning_first _ _ _ _ P).
  - intros l w md [] [] _ IH _ A; try exact I; try contradiction. cbn [appended_as] in A. split; [apply IH|]. exact (proj1 (lightning_next _ _ _ _ _ _ _ (proj2 IH) A) eq_refl).
Qed.
Lemma built_lightning : forall part ws g, Built part ws (GLightning g) -> part = RP_RMK /\ lightning_state ws g.
Proof.
  intros part ws g B.
  refine (built_kind part (fun ws k => match k with GLightning x => part = RP_RMK /\ lightning_state ws x | _ => True end) _ _ _ _ ws (GLightning g) B).
  - exact (fun _ => I).
  - intros w md [] P; try exact I. exact (lightning_first _ _ _ _ P).
  - intros l w md [] [] _ IH A; try exact I; try contradiction. cbn [appended_as] in A. split; [apply IH|]. exact (proj1 (lightning_next _ _ _ _ _ _ _ (proj2 IH) A) eq_refl).
  - intros l w part' md [] [] _ IH A; try exact I; try contradiction. cbn [appended_as] in A.
    rewrite (proj2 (lightning_next _ _ _ _ _ _ _ (proj2 IH) A) eq_refl). exact IH.
Qed.
Lemma state_said : forall ws g, lightning_state ws g -> lt_incomplete g = false -> exists v, Lightning_said ws v /\ tells g v.
Proof.
  intros ws g [w f F|fw f t dw d b1 p1 ands b2 p2 F D P1 A A1 P2 B1] I; [discriminate I|].
  destruct (strike_tells f t d b1 p1 b2 p2 P1 P2) as (l1 & l2 & l & B & B' & T & E).
  eexists. split; [eapply Lightning_words; eassumption|exact E].
Qed.
Lemma freq_waits : forall part f, ~ settled part (GLightning (Lightning_ofFreq f)).
Proof. intros part f H. apply (H "" md_default (GLightning (Lightning_ofFreq f))). vm_compute. reflexivity. Qed.
(** ** Words that say something are put together *)
Lemma place_not : forall w p, place w = Some p -> seqb w "AND" = false /\ seqb w "DSNT" = false /\ seqb w "VC" = false /\ seqb w "MOV" = false.
Proof.
  intros w p H. assert (X : forall k, place k = None -> seqb w k = false).
  { intros k K. destruct (seqb w k) eqn:E; [apply seqb_eq in E; subst w; congruence|reflexivity]. }
  repeat split; apply X; vm_compute; reflexivity.
Qed.
Lemma place_some : forall w p, place w = Some p -> exists d, fst p = Some d.
Proof.
  intros w p H. unfold place in H. destruct (Direction_fromCardinalString w true false); [injection H as <-; cbn; eauto|].
  destruct (Direction_fromSectorString w) as [[? ?]|]; [injection H as <-; cbn; eauto|discriminate H].
Qed.
Definition opened (now : option MetafTime) (ws : list string) (g : LightningGroup) : Prop := Assembled RP_RMK now ws (GLightning g).
Lemma open_ltg : forall now fw f t, fw = [] /\ f = Lt_NONE \/ (exists w, fw = [w] /\ In (w, f) frequencies) ->
  opened now (fw ++ ["LTG" ++ t]) (strike f t Distance_default (None, None) (None, None)).
Proof.
  intros now fw f t [[-> ->]|(w & -> & F)].
  - apply assembled_first. cbn [parsed_as]. unfold LightningGroup_parse.
    change (negb (is_part RP_RMK RP_RMK)) with false. cbv iota.
    assert (X : forall k, In k ["OCNL"; "FRQ"; "CONS"] -> seqb ("LTG" ++ t) k = false) by (intros k [<-|[<-|[<-|[]]]]; reflexivity).
    rewrite !X by (cbn; auto). apply ltg_parse. exists t. split; [reflexivity|]. symmetry. rewrite <- strike_first.
    destruct (add_types_rest (firstn 6 (pieces t)) Lightning_default) as (A & _). unfold add_types in *. cbv zeta in A.
    destruct (fold_left Lightning_addType (firstn 6 (pieces t)) Lightning_default). cbn in *. subst. reflexivity.
  - apply assembled_more with (g := GLightning (Lightning_ofFreq f)).
    + apply assembled_first. cbn [parsed_as]. destruct F as [F|[F|[F|[]]]]; injection F as <- <-; vm_compute; reflexivity.
    + cbn [appended_as]. unfold LightningGroup_append. cbn [lt_incomplete Lightning_ofFreq].
      assert (X : Lightning_fromLtgGroup ("LTG" ++ t) = Ok (Some (add_types (firstn 6 (pieces t))))) by (apply ltg_parse; eauto).
      rewrite X. cbn [bind lt_freq]. rewrite strike_first. reflexivity.
Qed.
Lemma open_dist : forall now ws f t, opened now ws (strike f t Distance_default (None, None) (None, None)) ->
  forall dw d, How_far dw d -> opened now (ws ++ dw) (strike f t d (None, None) (None, None)).
Proof.
  intros now ws f t H dw d D. induction D as [|dw d0 w d D IH W]; [rewrite app_nil_r; exact H|].
  rewrite app_assoc. eapply assembled_more; [exact IH|]. cbn [appended_as].
  destruct W as [W|[W|[]]]; injection W as <- <-; reflexivity.
Qed.
Lemma dir_append : forall (Q : option Direction -> option Direction -> LightningGroup) g w p, place w = Some p ->
  match Direction_fromCardinalString w true false with
  | Some e => Ok (Q (Some e) None, APPENDED)
  | None => match Direction_fromSectorString w with Some (x, y) => Ok (Q (Some x) (Some y), APPENDED) | None => Ok (g, NOT_APPENDED) end
  end = Ok (Q (fst p) (snd p), APPENDED).
Proof.
  intros Q g w p H. unfold place in H. destruct (Direction_fromCardinalString w true false); [injection H as <-; reflexivity|].
  destruct (Direction_fromSectorString w) as [[? ?]|]; [injection H as <-; reflexivity|discriminate H].
Qed.
Lemma open_dir1 : forall now ws f t d, opened now ws (strike f t d (None, None) (None, None)) ->
  forall b p, placed b p -> opened now (ws ++ b) (strike f t d p (None, None)).
Proof.
  intros now ws f t d H b p [|w q P]; [rewrite app_nil_r; exact H|].
  eapply assembled_more; [exact H|]. cbn [appended_as]. destruct (place_not _ _ P) as (_ & N1 & N2 & _).
  unfold LightningGroup_append, Lightning_isOmittedDir1, Lightning_isOmittedDir2. cbn [lt_incomplete strike lt_dir1from lt_dir1to lt_dir2from lt_dir2to fst snd has_value negb andb].
  rewrite N1, N2. exact (dir_append (fun x y => strike f t d (x, y) (None, None)) _ w q P).
Qed.
Lemma open_ands : forall now ws f t d p e, opened now ws (strike f t d p (None, None)) -> fst p = Some e ->
  forall ands, (forall w, In w ands -> w = "AND") -> opened now (ws ++ ands) (strike f t d p (None, None)).
Proof.
  intros now ws f t d p e H E ands. induction ands as [|w ands IH] using rev_ind; intros A; [rewrite app_nil_r; exact H|].
  rewrite (A w) by (apply in_app_iff; right; left; reflexivity). rewrite app_assoc.
  eapply assembled_more; [apply IH; intros v V; apply A, in_app_iff; left; exact V|]. cbn [appended_as].
  unfold LightningGroup_append, Lightning_isOmittedDir1, Lightning_isOmittedDir2. cbn [lt_incomplete strike lt_dir1from lt_dir1to lt_dir2from lt_dir2to fst snd has_value negb andb].
  rewrite E. reflexivity.
Qed.
Lemma open_dir2 : forall now ws f t d p e, opened now ws (strike f t d p (None, None)) -> fst p = Some e ->
  forall b q, placed b q -> opened now (ws ++ b) (strike f t d p q).
Proof.
  intros now ws f t d p e H E b q [|w r P]; [rewrite app_nil_r; exact H|].
  eapply assembled_more; [exact H|]. cbn [appended_as]. destruct (place_not _ _ P) as (N1 & _).
  unfold LightningGroup_append, Lightning_isOmittedDir1, Lightning_isOmittedDir2. cbn [lt_incomplete strike lt_dir1from lt_dir1to lt_dir2from lt_dir2to fst snd has_value negb andb].
  rewrite E. cbn [has_value negb andb]. rewrite N1. exact (dir_append (fun x y => strike f t d p (x, y)) _ w r P).
Qed.
Theorem lightning_words : forall part now ws,
  (forall g, Assembled part now ws (GLightning g) -> settled part (GLightning g) -> part = RP_RMK /\ exists v, Lightning_said ws v /\ tells g v)
  /\ (part = RP_RMK -> forall v, Lightning_said ws v -> exists g, Assembled part now ws (GLightning g) /\ settled part (GLightning g) /\ tells g v).
Proof.
  intros part now ws. split.
  - intros g H S. apply assembled_lightning in H. destruct H as [-> H]. split; [reflexivity|]. apply state_said; [exact H|].
    destruct H as [w f F|]; [destruct (freq_waits _ _ S)|reflexivity].
  - intros -> v H. destruct H as [fw f t dw d b1 l1 ands b2 l2 l F D P1 A A1 P2 B1 T].
    destruct (bearing_placed _ _ P1) as (p1 & Q1 & V1). destruct (bearing_placed _ _ P2) as (p2 & Q2 & V2).
    assert (Y : opened now (fw ++ ["LTG" ++ t] ++ dw ++ b1 ++ ands ++ b2) (strike f t d p1 p2)).
    { pose proof (open_dir1 _ _ _ _ _ (open_dist _ _ _ _ (open_ltg now _ _ t F) _ _ D) _ _ Q1) as X.
      destruct Q1 as [|w q Q1].
      - assert (ands = []) as -> by (destruct A1; congruence). assert (b2 = []) as -> by (destruct B1; congruence).
        inversion Q2. rewrite !app_nil_r in *. rewrite <- app_assoc in X. exact X.
      - destruct (place_some _ _ Q1) as (e & E). pose proof (open_dir2 _ _ _ _ _ _ _ (open_ands _ _ _ _ _ _ _ X E _ A) E _ _ Q2) as Y.
        rewrite <- !app_assoc in Y. exact Y. }
    destruct (strike_tells f t d b1 p1 b2 p2 Q1 Q2) as (k1 & k2 & k & B & B' & T' & E).
    rewrite (bearing_opt_unique _ _ _ P1 B), (bearing_opt_unique _ _ _ P2 B') in T. rewrite (together_unique _ _ _ _ T T').
    exists (strike f t d p1 p2). split; [exact Y|]. split; [|exact E].
    intros w md g' X. apply appended_inv in X. destruct g'; try contradiction. cbn [appended_as] in X.
    unfold LightningGroup_append in X. cbn [lt_incomplete strike] in X.
    repeat match type of X with context [if ?b then _ else _] => destruct b; try discriminate X end;
    destruct (Direction_fromCardinalString w true false); try discriminate X; destruct (Direction_fromSectorString w) as [[? ?]|]; discriminate X.
Qed.
Lemma frequency_word : forall (w : string) (f : LtFreq) (md : ReportMetadata), In (w, f) frequencies ->
  exists g, LightningGroup_parse w RP_RMK md = Ok (Some g) /\ tells g (Strikes f [] Distance_default []).
Proof.
  intros w f md F. exists (Lightning_ofFreq f). split.
  - destruct F as [F|[F|[F|[]]]]; injection F as <- <-; reflexivity.
  - split; [reflexivity|]. split; [|split; reflexivity].
    unfold tells_types. cbn [In Lightning_ofFreq lt_inCloud lt_cloudCloud lt_cloudGround lt_cloudAir lt_unknown].
    repeat (split; [split; [discriminate|intros []]|]). split; [discriminate|intros (t & [] & _)].
Qed.
