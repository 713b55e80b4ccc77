(** What the words of vicinity groups say. *)
From Coq Require Import Lia.
From Verif Require Import Prim Lib Regex Float Values Weather Groups1 Groups2 Groups3 Groups4 Parser SpecText SpecRegex SpecDirection SpecNumeral
  SpecReach SpecBuilt SpecAppend SpecAssembled SpecNearby SpecDecimal.
From Verif Require Import Pf_Ok Pf_OkValues Pf_Regex Pf_Caps Pf_Kinds Pf_Decode Pf_Values2 Pf_Values6 Pf_Values9 Pf_Built Pf_WeatherWords Pf_MinMax Pf_Refuse Pf_Waits
  Pf_Assembled Pf_Nearby Pf_Lightning.
Local Open Scope string_scope.

Definition near (t : VcType) (d : Distance) (p q : option Direction * option Direction) (m : Direction) (i : VcInc) : VicinityGroup :=
  mkVicinity t d (fst p) (snd p) (fst q) (snd q) m i.
Definition nowhere : option Direction * option Direction := (None, None).
Inductive moved : list string -> Direction -> VcInc -> VcInc -> Prop :=
| moved_no : forall i, moved [] Direction_default i i
| moved_mov : forall i, moved ["MOV"] Direction_default i VcI_EXPECT_MOVDIR
| moved_to : forall i w d, Direction_fromCardinalString w false true = Some d -> moved ["MOV"; w] d i VcI_NONE.
Inductive vicinity_state : list string -> VicinityGroup -> Prop :=
| near_rotor : vicinity_state ["ROTOR"] (near Vc_ROTOR_CLOUD Distance_default nowhere nowhere Direction_default VcI_EXPECT_CLD)
| near_what : forall pw t, Phenomenon_near pw t -> vicinity_state pw (near t Distance_default nowhere nowhere Direction_default VcI_EXPECT_DIST_DIR1)
| near_dist : forall pw t dw d i, Phenomenon_near pw t -> Distance_near dw d -> dw <> [] -> In i [VcI_EXPECT_DIR1; VcI_NONE] ->
    vicinity_state (pw ++ dw) (near t d nowhere nowhere Direction_default i)
| near_dir1 : forall pw t dw d w p mw m i j, Phenomenon_near pw t -> Distance_near dw d -> place w = Some p ->
    In i [VcI_EXPECT_DIR2_MOV; VcI_NONE] -> moved mw m i j ->
    vicinity_state (pw ++ dw ++ [w] ++ mw) (near t d p nowhere m j)
| near_and : forall pw t dw d w p, Phenomenon_near pw t -> Distance_near dw d -> place w = Some p ->
    vicinity_state (pw ++ dw ++ [w] ++ ["AND"]) (near t d p nowhere Direction_default VcI_EXPECT_DIR2)
| near_dir2 : forall pw t dw d w p ands v q mw m i j, Phenomenon_near pw t -> Distance_near dw d -> place w = Some p ->
    In ands [[]; ["AND"]] -> place v = Some q ->
    In i [VcI_EXPECT_MOV; VcI_NONE] -> moved mw m i j ->
    vicinity_state (pw ++ dw ++ [w] ++ ands ++ [v] ++ mw) (near t d p q m j).

Lemma lookup_in : forall (A : Type) s (l : list (string * A)) a, lookup s l = Some a -> In (s, a) l.
Proof.
  intros A s l a. induction l as [|[k b] l IH]; cbn [lookup]; [discriminate|].
  destruct (seqb s k) eqn:E; [apply seqb_eq in E; intros H; injection H as ->; subst k; left; reflexivity|right; auto].
Qed.
Lemma vicinity_first : forall part w md g, VicinityGroup_parse w part md = Ok (Some g) -> part = RP_RMK /\ vicinity_state [w] g.
Proof.
  intros part w md g H. unfold VicinityGroup_parse in H.
  destruct (is_part part RP_RMK) eqn:P; [|discriminate H]. apply is_part_true in P. split; [exact P|]. cbn [negb] in H.
  destruct (lookup w vc_table) as [t|] eqn:L; [|discriminate H]. injection H as <-. apply lookup_in in L.
  unfold vc_table in L. cbn [In] in L.
  repeat (destruct L as [L|L]; [injection L as <- <-; first [exact near_rotor | apply near_what; left; eexists; split; [reflexivity|cbn; tauto]]|]).
  contradiction.
Qed.
Lemma movement_parse : forall w d, Direction_fromCardinalString w false true = Some d <->
  (exists o, In (w, o) octant_names /\ d = towards o) \/ In (w, d) [("NDV", mkDir 0 DT_NDV); ("UNKNOWN", mkDir 0 DT_UNKNOWN)].
Proof.
  intros w d. split.
  - intros H. destruct (cardinal_names _ _ _ _ H) as [(o & Ho & _)|[(-> & _)|[(_ & X & _)|[(_ & X & _)|(-> & _)]]]]; try discriminate X.
    + left. exists o. split; [exact Ho|]. rewrite (octant_read _ _ _ _ Ho) in H. congruence.
    + right. vm_compute in H. injection H as <-. left. reflexivity.
    + right. vm_compute in H. injection H as <-. right. left. reflexivity.
  - intros [(o & Ho & ->)|[H|[H|[]]]]; [exact (octant_read _ _ _ _ Ho)| |]; injection H as <- <-; vm_compute; reflexivity.
Qed.
Lemma moved_movement : forall mw m i, moved mw m i VcI_NONE -> Movement mw m.
Proof.
  intros mw m i H. inversion H; subst; [left; auto|right]. eexists. split; [reflexivity|]. apply movement_parse. assumption.
Qed.
Lemma near_shows : forall t d b1 p1 b2 p2 m i, placed b1 p1 -> placed b2 p2 ->
  exists l1 l2 l, Bearing_opt b1 l1 /\ Bearing_opt b2 l2 /\ Together l1 l2 l /\ shows (near t d p1 p2 m i) (Nearby t d l m).
Proof.
  intros t d b1 p1 b2 p2 m i P Q.
  destruct (areas_together p1 p2 (placed_maybe _ _ P) (placed_maybe _ _ Q)) as (l1 & l2 & l & V1 & V2 & V & T & _ & _).
  exists l1, l2, l. split; [exact (placed_bearing _ _ _ P V1)|]. split; [exact (placed_bearing _ _ _ Q V2)|]. split; [exact T|].
  split; [reflexivity|]. split; [reflexivity|]. split; [exact V|reflexivity].
Qed.
Lemma distance_append : forall g w g', Vicinity_appendDistance g w = Ok (Some g') <->
  exists d, Distance_near [w] d /\ g' = Vicinity_setDist g d.
Proof.
  intros g w g'. unfold Vicinity_appendDistance. destruct (seqb w "DSNT") eqn:E1.
  { apply seqb_eq in E1. subst w. split.
    - intros H. injection H as <-. eexists. split; [|reflexivity]. right. left. eexists. split; [reflexivity|left; reflexivity].
    - intros (d & [[X _]|[(k & X & [Y|[Y|[]]])|(n & v & X & Y & _)]] & ->); try discriminate X; injection X as X; try (rewrite <- X in Y; discriminate Y); [injection Y as _ <-; reflexivity|].
      exfalso. do 5 (destruct n as [|? n]; [discriminate X|]); discriminate X. }
  destruct (seqb w "VC") eqn:E2.
  { apply seqb_eq in E2. subst w. split.
    - intros H. injection H as <-. eexists. split; [|reflexivity]. right. left. eexists. split; [reflexivity|right; left; reflexivity].
    - intros (d & [[X _]|[(k & X & [Y|[Y|[]]])|(n & v & X & Y & _)]] & ->); try discriminate X; injection X as X; try (rewrite <- X in Y; discriminate Y); [injection Y as _ <-; reflexivity|].
      exfalso. do 5 (destruct n as [|? n]; [discriminate X|]); discriminate X. }
  split.
  - intros H. apply bind_ok in H. destruct H as ([d|] & K & H); [|discriminate H]. injection H as <-. exists d. split; [|reflexivity].
    right. right. apply km_parse in K. destruct K as (n & v & -> & N & ->). eauto.
  - intros (d & [[X _]|[(k & X & [Y|[Y|[]]])|(n & v & X & Y & ->)]] & ->); try discriminate X; injection X as X.
    + injection Y as <- _. subst w. discriminate E1.
    + injection Y as <- _. subst w. discriminate E2.
    + assert (K : Distance_fromKmString w = Ok (Some (mkDist DM_NONE (Some (1000 * v)%N) METERS))) by (apply km_parse; eauto). rewrite K. reflexivity.
Qed.
Lemma dir1_append : forall t d q m i w g', Vicinity_appendDir1 (near t d nowhere q m i) w = Some g' <-> exists p, place w = Some p /\ g' = near t d p q m i.
Proof.
  intros t d q m i w g'. unfold Vicinity_appendDir1, place. destruct (Direction_fromCardinalString w true false) as [e|].
  { split; [intros H; injection H as <-; eexists; split; reflexivity|intros (p & H & ->); injection H as <-; reflexivity]. }
  destruct (Direction_fromSectorString w) as [[x y]|]; [|split; [discriminate|intros (p & H & _); discriminate H]].
  split; [intros H; injection H as <-; eexists; split; reflexivity|intros (p & H & ->); injection H as <-; reflexivity].
Qed.
Lemma dir2_append : forall t d p m i w g', Vicinity_appendDir2 (near t d p nowhere m i) w = Some g' <-> exists q, place w = Some q /\ g' = near t d p q m i.
Proof.
  intros t d p m i w g'. unfold Vicinity_appendDir2, place. destruct (Direction_fromCardinalString w true false) as [e|].
  { split; [intros H; injection H as <-; eexists; split; reflexivity|intros (q & H & ->); injection H as <-; reflexivity]. }
  destruct (Direction_fromSectorString w) as [[x y]|]; [|split; [discriminate|intros (q & H & _); discriminate H]].
  split; [intros H; injection H as <-; eexists; split; reflexivity|intros (q & H & ->); injection H as <-; reflexivity].
Qed.
Lemma dir1_none : forall t d q m i w, Vicinity_appendDir1 (near t d nowhere q m i) w = None -> place w = None.
Proof. intros t d q m i w H. unfold Vicinity_appendDir1, place in *. destruct (Direction_fromCardinalString w true false); [discriminate H|]. destruct (Direction_fromSectorString w) as [[? ?]|]; [discriminate H|reflexivity]. Qed.
Definition one_of (a b i : VcInc) : Prop := In i [a; b].
Lemma dist_append_near : forall w d, Distance_near [w] d -> Distance_near [w] d /\ [w] <> [].
Proof. intros w d H. split; [exact H|discriminate]. Qed.
Lemma no_distance : Distance_near [] Distance_default.
Proof. left. auto. Qed.
Lemma vicinity_next : forall ws w part md g g' a, vicinity_state ws g -> VicinityGroup_append g w part md = Ok (g', a) ->
  (a = APPENDED -> vicinity_state (ws ++ [w]) g') /\ (a = NOT_APPENDED -> vicinity_state ws g' /\ vc_inc g' = VcI_NONE).
Proof.
  intros ws w part md g g' a S H. unfold VicinityGroup_append in H.
  destruct S as [|pw t P|pw t dw d i P D N I|pw t dw d u p mw m i j P D U I M|pw t dw d u p P D U|pw t dw d u p ands v q mw m i j P D U A V I M].
  - cbn [vc_inc near] in H. destruct (seqb w "CLD") eqn:E; injection H as <- <-; split; try discriminate. intros _.
    apply seqb_eq in E. subst w. apply near_what. right. auto.
  - cbn [vc_inc near] in H. apply bind_ok in H. destruct H as ([k|] & K & H).
    + apply distance_append in K. destruct K as (d & K & ->). injection H as <- <-. split; [intros _|discriminate].
      apply near_dist; [exact P|exact K|discriminate|left; reflexivity].
    + destruct (Vicinity_appendDir1 _ w) as [k|] eqn:E; injection H as <- <-; split; try discriminate. intros _.
      apply dir1_append in E. destruct E as (p & E & ->).
      pose proof (near_dir1 pw t [] _ w p [] _ VcI_EXPECT_DIR2_MOV _ P no_distance E (or_introl eq_refl) (moved_no _)) as X.
      exact X.
  - destruct I as [<-|[<-|[]]]; cbn [vc_inc near] in H.
    + destruct (Vicinity_appendDir1 _ w) as [k|] eqn:E; injection H as <- <-; split; try discriminate; intros _.
      * apply dir1_append in E. destruct E as (p & E & ->). rewrite <- app_assoc.
        pose proof (near_dir1 pw t dw d w p [] _ VcI_EXPECT_DIR2_MOV _ P D E (or_introl eq_refl) (moved_no _)) as X. exact X.
      * split; [|reflexivity]. apply near_dist; auto. right. left. reflexivity.
    + injection H as <- <-. split; [discriminate|intros _]. split; [|reflexivity]. apply near_dist; auto. right. left. reflexivity.
  - destruct M as [i|i|i x e M]; [destruct I as [<-|[<-|[]]]| |]; cbn [vc_inc near] in H.
    + destruct (seqb w "MOV") eqn:E; [|destruct (seqb w "AND") eqn:E'; [|destruct (Vicinity_appendDir2 _ w) as [k|] eqn:K]];
        injection H as <- <-; split; try discriminate; intros _.
      * apply seqb_eq in E. subst w. rewrite !app_nil_r, <- !app_assoc.
        exact (near_dir1 pw t dw d u p ["MOV"] _ VcI_NONE _ P D U (or_intror (or_introl eq_refl)) (moved_mov _)).
      * apply seqb_eq in E'. subst w. rewrite !app_nil_r, <- !app_assoc. exact (near_and pw t dw d u p P D U).
      * apply dir2_append in K. destruct K as (q & K & ->). rewrite !app_nil_r, <- !app_assoc.
        exact (near_dir2 pw t dw d u p [] w q [] _ VcI_EXPECT_MOV _ P D U (or_introl eq_refl) K (or_introl eq_refl) (moved_no _)).
      * split; [|reflexivity]. exact (near_dir1 pw t dw d u p [] _ VcI_NONE _ P D U (or_intror (or_introl eq_refl)) (moved_no _)).
    + injection H as <- <-. split; [discriminate|intros _]. split; [|reflexivity].
      exact (near_dir1 pw t dw d u p [] _ VcI_NONE _ P D U (or_intror (or_introl eq_refl)) (moved_no _)).
    + destruct (Direction_fromCardinalString w false true) as [e|] eqn:E; injection H as <- <-; split; try discriminate. intros _.
      rewrite <- !app_assoc. exact (near_dir1 pw t dw d u p ["MOV"; w] _ VcI_NONE _ P D U (or_intror (or_introl eq_refl)) (moved_to _ _ _ E)).
    + injection H as <- <-. split; [discriminate|intros _]. split; [|reflexivity].
      exact (near_dir1 pw t dw d u p ["MOV"; x] _ VcI_NONE _ P D U (or_intror (or_introl eq_refl)) (moved_to _ _ _ M)).
  - cbn [vc_inc near] in H. destruct (Vicinity_appendDir2 _ w) as [k|] eqn:K; injection H as <- <-; split; try discriminate. intros _.
    apply dir2_append in K. destruct K as (q & K & ->). rewrite <- !app_assoc.
    exact (near_dir2 pw t dw d u p ["AND"] w q [] _ VcI_EXPECT_MOV _ P D U (or_intror (or_introl eq_refl)) K (or_introl eq_refl) (moved_no _)).
  - destruct M as [i|i|i x e M]; [destruct I as [<-|[<-|[]]]| |]; cbn [vc_inc near] in H.
    + destruct (seqb w "MOV") eqn:E; injection H as <- <-; split; try discriminate; intros _.
      * apply seqb_eq in E. subst w. rewrite !app_nil_r, <- !app_assoc.
        exact (near_dir2 pw t dw d u p ands v q ["MOV"] _ VcI_NONE _ P D U A V (or_intror (or_introl eq_refl)) (moved_mov _)).
      * split; [|reflexivity]. exact (near_dir2 pw t dw d u p ands v q [] _ VcI_NONE _ P D U A V (or_intror (or_introl eq_refl)) (moved_no _)).
    + injection H as <- <-. split; [discriminate|intros _]. split; [|reflexivity].
      exact (near_dir2 pw t dw d u p ands v q [] _ VcI_NONE _ P D U A V (or_intror (or_introl eq_refl)) (moved_no _)).
    + destruct (Direction_fromCardinalString w false true) as [e|] eqn:E; injection H as <- <-; split; try discriminate. intros _.
      rewrite <- !app_assoc. exact (near_dir2 pw t dw d u p ands v q ["MOV"; w] _ VcI_NONE _ P D U A V (or_intror (or_introl eq_refl)) (moved_to _ _ _ E)).
    + injection H as <- <-. split; [discriminate|intros _]. split; [|reflexivity].
      exact (near_dir2 pw t dw d u p ands v q ["MOV"; x] _ VcI_NONE _ P D U A V (or_intror (or_introl eq_refl)) (moved_to _ _ _ M)).
Qed.
Lemma assembled_vicinity : forall part now ws g, Assembled part now ws (GVicinity g) -> part = RP_RMK /\ vicinity_state ws g.
Proof.
  intros part now ws g B.
  refine (assembled_kind part now (fun ws k => match k with GVicinity x => part = RP_RMK /\ vicinity_state ws x | _ => True end) _ _ ws (GVicinity g) B).
  - intros w md [] _ P; try exact I. exact (vicinity_first _ _ _ _ P).
  - intros l w md [] [] _ IH _ A; try exact I; try contradiction. cbn [appended_as] in A. split; [apply IH|]. exact (proj1 (vicinity_next _ _ _ _ _ _ _ (proj2 IH) A) eq_refl).
Qed.
Lemma built_vicinity : forall part ws g, Built part ws (GVicinity g) -> part = RP_RMK /\ vicinity_state ws g.
Proof.
  intros part ws g B.
  refine (built_kind part (fun ws k => match k with GVicinity x => part = RP_RMK /\ vicinity_state ws x | _ => True end) _ _ _ _ ws (GVicinity g) B).
  - exact (fun _ => I).
  - intros w md [] P; try exact I. exact (vicinity_first _ _ _ _ P).
  - intros l w md [] [] _ IH A; try exact I; try contradiction. cbn [appended_as] in A. split; [apply IH|]. exact (proj1 (vicinity_next _ _ _ _ _ _ _ (proj2 IH) A) eq_refl).
  - intros l w part' md [] [] _ IH A; try exact I; try contradiction. cbn [appended_as] in A. split; [apply IH|].
    exact (proj1 (proj2 (vicinity_next _ _ _ _ _ _ _ (proj2 IH) A) eq_refl)).
Qed.
Definition open_ended (i : VcInc) : bool :=
  match i with VcI_NONE | VcI_EXPECT_DIR1 | VcI_EXPECT_DIR2_MOV | VcI_EXPECT_MOV => true | _ => false end.
Lemma near_said : forall ws g, vicinity_state ws g -> open_ended (vc_inc g) = true -> exists v, Vicinity_said ws v /\ shows g v.
Proof.
  assert (Mv : forall mw m i j, moved mw m i j -> open_ended j = true -> Movement mw m).
  { intros mw m i j [x|x|x w d H] O; [left; auto|discriminate O|]. right. exists w. split; [reflexivity|]. apply movement_parse. exact H. }
  intros ws g S O.
  destruct S as [|pw t P|pw t dw d i P D N I|pw t dw d u p mw m i j P D U I M|pw t dw d u p P D U|pw t dw d u p ands v q mw m i j P D U A V I M]; try discriminate O.
  - destruct (near_shows t d [] _ [] _ Direction_default i placed_no placed_no) as (l1 & l2 & l & B1 & B2 & T & E).
    exists (Nearby t d l Direction_default). split; [|exact E].
    pose proof (Vicinity_words pw t dw d [] l1 [] [] l2 l [] Direction_default P D B1 (or_introl eq_refl) B2 (or_introl (conj eq_refl eq_refl)) (or_introl N) (fun _ => conj eq_refl eq_refl) T) as X.
    rewrite !app_nil_r in X. exact X.
  - destruct (near_shows t d [u] _ [] _ m j (placed_at _ _ U) placed_no) as (l1 & l2 & l & B1 & B2 & T & E).
    exists (Nearby t d l m). split; [|exact E]. assert (Ne : [u] <> []) by discriminate.
    exact (Vicinity_words pw t dw d [u] l1 [] [] l2 l mw m P D B1 (or_introl eq_refl) B2 (Mv _ _ _ _ M O) (or_intror Ne) (fun e => False_ind _ (Ne e)) T).
  - destruct (near_shows t d [u] _ [v] _ m j (placed_at _ _ U) (placed_at _ _ V)) as (l1 & l2 & l & B1 & B2 & T & E).
    exists (Nearby t d l m). split; [|exact E]. assert (Ne : [u] <> []) by discriminate. assert (Nv : [v] <> []) by discriminate.
    refine (Vicinity_words pw t dw d [u] l1 ands [v] l2 l mw m P D B1 _ B2 (Mv _ _ _ _ M O) (or_intror Ne) (fun e => False_ind _ (Ne e)) T).
    destruct A as [<-|[<-|[]]]; auto.
Qed.
Lemma near_settled : forall part g, settled part (GVicinity g) <-> open_ended (vc_inc g) = true.
Proof.
  intros part g. split.
  - intros H. destruct (vc_inc g) eqn:E; try reflexivity; exfalso; apply (H "" md_default (GVicinity g)); cbn [Group_append]; unfold VicinityGroup_append; rewrite E; reflexivity.
  - intros H w md g' X. apply appended_inv in X. destruct g'; try contradiction. cbn [appended_as] in X.
    unfold VicinityGroup_append in X. destruct (vc_inc g); try discriminate H.
    + discriminate X.
    + destruct (Vicinity_appendDir1 g w); discriminate X.
    + destruct (seqb w "MOV"); [discriminate X|]. destruct (seqb w "AND"); [discriminate X|]. destruct (Vicinity_appendDir2 g w); discriminate X.
    + destruct (seqb w "MOV"); discriminate X.
Qed.
(** ** Words that say something are put together *)
Lemma place_letter : forall w p, place w = Some p -> exists c t, w = String c t /\ digit_of c = None.
Proof.
  intros w p H. destruct (areas_together p (None, None) (or_intror (place_area _ _ H)) (or_introl eq_refl)) as (l & _ & _ & V & _).
  assert (B : Bearing w l) by (apply bearing_place; eauto).
  assert (O : forall v o, In (v, o) octant_names -> exists c t, v = String c t /\ digit_of c = None).
  { intros v o X. cbn [octant_names In] in X. repeat (destruct X as [X|X]; [injection X as <- _; eexists; eexists; split; [reflexivity|reflexivity]|]). contradiction. }
  destruct B as [v o X|v t X|v m u i j _ _ X _ _].
  - exact (O _ _ X).
  - cbn [other_names In] in X. repeat (destruct X as [X|X]; [injection X as <- _; eexists; eexists; split; [reflexivity|reflexivity]|]). contradiction.
  - destruct (O _ _ X) as (c & t & -> & D). exists c. eexists. split; [reflexivity|exact D].
Qed.
Lemma place_no_distance : forall w p d, place w = Some p -> Distance_near [w] d -> False.
Proof.
  intros w p d H [[X _]|[(k & X & Y)|(n & v & X & N & _)]]; [discriminate X| |].
  - injection X as <-. destruct (place_not _ _ H) as (_ & A & B & _). destruct Y as [Y|[Y|[]]]; injection Y as <- _; discriminate.
  - injection X as ->. destruct (place_letter _ _ H) as (c & t & E & D).
    assert (Z : exists a b, n = String a b /\ digit_of a <> None).
    { destruct N as [[L Q]|[L Q]]; destruct n as [|a n]; try discriminate L; exists a, n; (split; [reflexivity|]); cbn [decimal] in Q; destruct (digit_of a); congruence. }
    destruct Z as (a & b & -> & Z). cbn [append] in E. injection E as -> _. contradiction.
Qed.
Lemma place_distance_none : forall g w p, place w = Some p -> Vicinity_appendDistance g w = Ok None.
Proof.
  intros g w p H. destruct (Vicinity_appendDistance g w) as [[k|]|f] eqn:E.
  - apply distance_append in E. destruct E as (d & E & _). destruct (place_no_distance _ _ _ H E).
  - reflexivity.
  - exfalso. unfold Vicinity_appendDistance in E. destruct (seqb w "DSNT"); [discriminate E|]. destruct (seqb w "VC"); [discriminate E|].
    pose proof (ok_Distance_fromKmString w) as K. unfold ok in K. destruct (Distance_fromKmString w) as [[?|]|?]; [discriminate E|discriminate E|exact K].
Qed.
Definition standing (now : option MetafTime) (ws : list string) (g : VicinityGroup) : Prop := Assembled RP_RMK now ws (GVicinity g).
Lemma stand_what : forall now pw t, Phenomenon_near pw t -> standing now pw (near t Distance_default nowhere nowhere Direction_default VcI_EXPECT_DIST_DIR1).
Proof.
  intros now pw t [(w & -> & H)|[-> ->]].
  - apply assembled_first. cbn [parsed_as]. cbn [phenomena_near In] in H.
    repeat (destruct H as [H|H]; [injection H as <- <-; vm_compute; reflexivity|]). contradiction.
  - change ["ROTOR"; "CLD"] with (["ROTOR"] ++ ["CLD"])%list.
    apply assembled_more with (g := GVicinity (Vicinity_of Vc_ROTOR_CLOUD)); [|vm_compute; reflexivity].
    apply assembled_first. vm_compute. reflexivity.
Qed.
Lemma stand_dist : forall now pw t dw d, Phenomenon_near pw t -> Distance_near dw d -> exists i,
  standing now (pw ++ dw) (near t d nowhere nowhere Direction_default i) /\ In i [VcI_EXPECT_DIST_DIR1; VcI_EXPECT_DIR1] /\ (dw <> [] -> i = VcI_EXPECT_DIR1).
Proof.
  intros now pw t dw d P D. destruct dw as [|w [|? ?]].
  - exists VcI_EXPECT_DIST_DIR1. destruct D as [[_ ->]|[(? & X & _)|(? & ? & X & _)]]; try discriminate X.
    rewrite app_nil_r. split; [apply stand_what; exact P|]. split; [left; reflexivity|congruence].
  - exists VcI_EXPECT_DIR1. split; [|split; [right; left; reflexivity|auto]].
    apply assembled_more with (g := GVicinity (near t Distance_default nowhere nowhere Direction_default VcI_EXPECT_DIST_DIR1)); [apply stand_what; exact P|].
    cbn [appended_as]. unfold VicinityGroup_append. cbn [vc_inc near].
    assert (X : Vicinity_appendDistance (near t Distance_default nowhere nowhere Direction_default VcI_EXPECT_DIST_DIR1) w = Ok (Some (Vicinity_setDist (near t Distance_default nowhere nowhere Direction_default VcI_EXPECT_DIST_DIR1) d))) by (apply distance_append; eauto).
    rewrite X. reflexivity.
  - destruct D as [[X _]|[(? & X & _)|(? & ? & X & _)]]; discriminate X.
Qed.
Lemma stand_dir1 : forall now ws t d i w p, standing now ws (near t d nowhere nowhere Direction_default i) -> In i [VcI_EXPECT_DIST_DIR1; VcI_EXPECT_DIR1] ->
  place w = Some p -> standing now (ws ++ [w]) (near t d p nowhere Direction_default VcI_EXPECT_DIR2_MOV).
Proof.
  intros now ws t d i w p H I P. eapply assembled_more; [exact H|]. cbn [appended_as]. unfold VicinityGroup_append.
  assert (X : Vicinity_appendDir1 (near t d nowhere nowhere Direction_default i) w = Some (near t d p nowhere Direction_default i)) by (apply dir1_append; eauto).
  destruct I as [<-|[<-|[]]]; cbn [vc_inc near].
  - rewrite (place_distance_none _ _ _ P). cbn [bind]. rewrite X. reflexivity.
  - rewrite X. reflexivity.
Qed.
Lemma stand_dir2 : forall now ws t d p ands b2 q, standing now ws (near t d p nowhere Direction_default VcI_EXPECT_DIR2_MOV) ->
  (ands = [] \/ ands = ["AND"] /\ b2 <> []) -> placed b2 q -> exists i,
  standing now (ws ++ ands ++ b2) (near t d p q Direction_default i) /\ In i [VcI_EXPECT_DIR2_MOV; VcI_EXPECT_MOV].
Proof.
  intros now ws t d p ands b2 q H A Q. destruct Q as [|v q Q].
  - exists VcI_EXPECT_DIR2_MOV. assert (ands = []) as -> by (destruct A as [A|[_ A]]; congruence). rewrite !app_nil_r. split; [exact H|left; reflexivity].
  - exists VcI_EXPECT_MOV. split; [|right; left; reflexivity]. destruct (place_not _ _ Q) as (N1 & _ & _ & N2).
    assert (X : forall i, Vicinity_appendDir2 (near t d p nowhere Direction_default i) v = Some (near t d p q Direction_default i)) by (intros i; apply dir2_append; eauto).
    destruct A as [->|[-> _]].
    + eapply assembled_more; [exact H|]. cbn [appended_as]. unfold VicinityGroup_append. cbn [vc_inc near].
      rewrite N1, N2, X. reflexivity.
    + rewrite app_assoc. apply assembled_more with (g := GVicinity (near t d p nowhere Direction_default VcI_EXPECT_DIR2)).
      * eapply assembled_more; [exact H|]. reflexivity.
      * cbn [appended_as]. unfold VicinityGroup_append. cbn [vc_inc near]. rewrite X. reflexivity.
Qed.
Lemma stand_move : forall now ws t d p q i mw m, standing now ws (near t d p q Direction_default i) -> In i [VcI_EXPECT_DIR2_MOV; VcI_EXPECT_MOV] ->
  Movement mw m -> exists j, standing now (ws ++ mw) (near t d p q m j) /\ open_ended j = true.
Proof.
  intros now ws t d p q i mw m H I [[-> ->]|(w & -> & M)].
  - exists i. rewrite app_nil_r. split; [exact H|]. destruct I as [<-|[<-|[]]]; reflexivity.
  - exists VcI_NONE. split; [|reflexivity]. change ["MOV"; w] with (["MOV"] ++ [w])%list. rewrite app_assoc.
    apply assembled_more with (g := GVicinity (near t d p q Direction_default VcI_EXPECT_MOVDIR)).
    + eapply assembled_more; [exact H|]. destruct I as [<-|[<-|[]]]; reflexivity.
    + cbn [appended_as]. unfold VicinityGroup_append. cbn [vc_inc near]. apply movement_parse in M. rewrite M. reflexivity.
Qed.
Theorem vicinity_words : forall part now ws,
  (forall g, Assembled part now ws (GVicinity g) -> settled part (GVicinity g) -> part = RP_RMK /\ exists v, Vicinity_said ws v /\ shows g v)
  /\ (part = RP_RMK -> forall v, Vicinity_said ws v -> exists g, Assembled part now ws (GVicinity g) /\ settled part (GVicinity g) /\ shows g v).
Proof.
  intros part now ws. split.
  - intros g H S. apply assembled_vicinity in H. destruct H as [-> H]. split; [reflexivity|]. apply near_said; [exact H|].
    apply near_settled in S. exact S.
  - intros -> v H. destruct H as [pw t dw d b1 l1 ands b2 l2 l mw m P D B1 A B2 M N E T].
    destruct (bearing_placed _ _ B1) as (p1 & Q1 & V1). destruct (bearing_placed _ _ B2) as (p2 & Q2 & V2).
    assert (Y : exists j, standing now (pw ++ dw ++ b1 ++ ands ++ b2 ++ mw) (near t d p1 p2 m j) /\ open_ended j = true).
    { destruct (stand_dist now _ _ _ _ P D) as (i & X & I & Ni). destruct Q1 as [|w q Q1].
      - destruct (E eq_refl) as [-> ->]. assert (ands = []) as -> by (destruct A as [A|[_ A]]; congruence).
        inversion Q2. subst p2. rewrite !app_nil_r. exists i. destruct M as [[_ ->]|(? & M & _)]; [|discriminate M].
        split; [exact X|]. rewrite Ni by (destruct N; congruence). reflexivity.
      - pose proof (stand_dir1 _ _ _ _ _ _ _ X I Q1) as X1. destruct (stand_dir2 _ _ _ _ _ _ _ _ X1 A Q2) as (k & X2 & K).
        destruct (stand_move _ _ _ _ _ _ _ _ _ X2 K M) as (j & X3 & J). exists j. split; [|exact J]. rewrite <- !app_assoc in X3. exact X3. }
    destruct Y as (j & Y & J). exists (near t d p1 p2 m j). split; [exact Y|]. split; [apply near_settled; exact J|].
    destruct (near_shows t d b1 p1 b2 p2 m j Q1 Q2) as (k1 & k2 & k & B & B' & T' & F).
    rewrite (bearing_opt_unique _ _ _ B1 B), (bearing_opt_unique _ _ _ B2 B') in T. rewrite (together_unique _ _ _ _ T T'). exact F.
Qed.
(** ** Groups of a report *)
Theorem result_lightning : forall sgn report limit r, parse sgn report limit = Ok r ->
  forall g part raw, In (mkGroupInfo (GLightning g) part raw) (pr_groups r) -> raw <> "" ->
  part = RP_RMK /\ exists v, Lightning_said (words_of raw) v /\ tells g v.
Proof.
  intros sgn report limit r E g part raw Hi N. destruct (result_built _ _ _ _ E _ Hi) as [X|B]; [contradiction|].
  destruct (built_lightning _ _ _ B) as [P S]. cbn [gi_reportPart gi_rawString] in *. split; [exact P|]. apply state_said; [exact S|].
  destruct (lt_incomplete g) eqn:I; [exfalso|reflexivity].
  destruct (left_incomplete _ _ _ _ E _ _ _ Hi N I) as [X|[X _]]; [|congruence].
  inversion S as [w f F Y Z|]; subst g; [|discriminate I]. rewrite <- Y in X.
  unfold left_open in X. cbn [frequencies In] in F. 
  destruct F as [F|[F|[F|[]]]]; injection F as <- _; destruct X as [X|[X|[X|X]]]; discriminate X.
Qed.
Theorem result_vicinity : forall sgn report limit r, parse sgn report limit = Ok r ->
  forall g part raw, In (mkGroupInfo (GVicinity g) part raw) (pr_groups r) -> raw <> "" ->
  part = RP_RMK /\ exists v, Vicinity_said (words_of raw) v /\ shows g v.
Proof.
  intros sgn report limit r E g part raw Hi N. destruct (result_built _ _ _ _ E _ Hi) as [X|B]; [contradiction|].
  destruct (built_vicinity _ _ _ B) as [P S]. cbn [gi_reportPart gi_rawString] in *. split; [exact P|]. apply near_said; [exact S|].
  destruct (VcInc_beq (vc_inc g) VcI_NONE) eqn:I; [apply internal_VcInc_dec_bl in I; rewrite I; reflexivity|exfalso].
  destruct (left_incomplete _ _ _ _ E (GVicinity g) _ _ Hi N) as [X|[X _]]; [cbn [waiting]; rewrite I; reflexivity| |congruence].
  assert (H : exists w t, words_of raw = w :: t /\ In w (map fst vc_table)).
  { assert (W : forall pw t rest, Phenomenon_near pw t -> exists w l, (pw ++ rest)%list = w :: l /\ In w (map fst vc_table)).
    { intros pw t rest [(w & -> & H)|[-> _]]; [|eexists; eexists; split; [reflexivity|vm_compute; tauto]].
      eexists; eexists; split; [reflexivity|]. cbn [phenomena_near In] in H.
      repeat (destruct H as [H|H]; [injection H as <- _; vm_compute; tauto|]). contradiction. }
    inversion S; subst; try (eapply W; eassumption).
    - eexists; eexists; split; [reflexivity|vm_compute; tauto].
    - rewrite <- (app_nil_r (words_of raw)). eapply W. eassumption. }
  destruct H as (w & t & Hw & H). rewrite Hw in X. unfold left_open in X. vm_compute in H.
  repeat (destruct H as [<-|H]; [destruct X as [X|[X|[X|X]]]; discriminate X|]). contradiction.
Qed.
(** ** Directions *)
Lemma reach_lightning : forall g, Reachable (GLightning g) -> exists ws, lightning_state ws g.
Proof.
  apply reach_Lightning.
  - intros s part md k H. exists [s]. exact (proj2 (lightning_first _ _ _ _ H)).
  - intros k s part md k' a _ (ws & S) H. destruct (lightning_next _ _ _ _ _ _ _ S H) as [A B]. destruct a; [eauto|rewrite (B eq_refl); eauto|].
    exists ws. unfold LightningGroup_append in H. destruct (lt_incomplete k).
    + apply bind_ok in H. destruct H as ([x|] & _ & H); [discriminate H|]. injection H as <-. exact S.
    + repeat match type of H with context [if ?b then _ else _] => destruct b; try discriminate H end;
      destruct (Direction_fromCardinalString s true false); try discriminate H; destruct (Direction_fromSectorString s) as [[? ?]|]; discriminate H.
Qed.
Lemma reach_vicinity : forall g, Reachable (GVicinity g) -> exists ws, vicinity_state ws g.
Proof.
  apply reach_Vicinity.
  - intros s part md k H. exists [s]. exact (proj2 (vicinity_first _ _ _ _ H)).
  - intros k s part md k' a _ (ws & S) H. destruct (vicinity_next _ _ _ _ _ _ _ S H) as [A B]. destruct a; [eauto|exists ws; exact (proj1 (B eq_refl))|].
    exists ws. assert (k' = k); [|subst; exact S]. unfold VicinityGroup_append in H. destruct (vc_inc k).
    + congruence.
    + destruct (seqb s "CLD"); congruence.
    + apply bind_ok in H. destruct H as ([x|] & _ & H); [discriminate H|]. destruct (Vicinity_appendDir1 k s); congruence.
    + destruct (Vicinity_appendDir1 k s); congruence.
    + destruct (seqb s "MOV"); [discriminate H|]. destruct (seqb s "AND"); [discriminate H|]. destruct (Vicinity_appendDir2 k s); discriminate H.
    + destruct (Vicinity_appendDir2 k s); congruence.
    + destruct (seqb s "MOV"); congruence.
    + destruct (Direction_fromCardinalString s false true); congruence.
Qed.
Theorem lightning_directions : forall g, Reachable (GLightning g) -> exists l, LightningGroup_directions g = Ok l /\ NoDup l /\ (List.length l <= 9)%nat.
Proof.
  intros g R. destruct (reach_lightning g R) as (ws & [w f F|fw f t dw d b1 p1 ands b2 p2 F D P1 A A1 P2 B1]).
  - exists []. split; [reflexivity|]. split; [constructor|cbn; lia].
  - destruct (areas_together p1 p2 (placed_maybe _ _ P1) (placed_maybe _ _ P2)) as (_ & _ & l & _ & _ & V & _ & U & L). exists l. auto.
Qed.
Theorem vicinity_directions : forall g, Reachable (GVicinity g) -> exists l, VicinityGroup_directions g = Ok l /\ NoDup l /\ (List.length l <= 9)%nat.
Proof.
  intros g R. assert (X : exists p q, VicinityGroup_directions g = sector_directions (fst p) (snd p) (fst q) (snd q) /\ In p maybe /\ In q maybe).
  { destruct (reach_vicinity g R) as (ws & S).
    destruct S as [|pw t P|pw t dw d i P D N I|pw t dw d u p mw m i j P D U I M|pw t dw d u p P D U|pw t dw d u p ands v q mw m i j P D U A V I M].
    - exists nowhere, nowhere. split; [reflexivity|split; left; reflexivity].
    - exists nowhere, nowhere. split; [reflexivity|split; left; reflexivity].
    - exists nowhere, nowhere. split; [reflexivity|split; left; reflexivity].
    - exists p, nowhere. split; [reflexivity|split; [right; exact (place_area _ _ U)|left; reflexivity]].
    - exists p, nowhere. split; [reflexivity|split; [right; exact (place_area _ _ U)|left; reflexivity]].
    - exists p, q. split; [reflexivity|split; right; [exact (place_area _ _ U)|exact (place_area _ _ V)]]. }
  destruct X as (p & q & -> & P & Q). destruct (areas_together p q P Q) as (_ & _ & l & _ & _ & V & _ & U & L). exists l. auto.
Qed.
