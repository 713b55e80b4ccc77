(** Bearings, and the directions of lightning and vicinity groups. *)
From Coq Require Import Lia.
From Verif Require Import Prim Lib Regex Float Values Weather Groups1 Groups2 Groups3 Groups4 Parser SpecRegex SpecDirection SpecNumeral SpecReach SpecNearby.
From Verif Require Import Pf_Ok Pf_Regex Pf_Caps Pf_Kinds Pf_Decode Pf_Values6 Pf_Values9 Pf_MinMax Pf_Refuse.
Local Open Scope string_scope.
Local Open Scope N_scope.

(** ** Sectors *)
Fixpoint dashless (s : string) : bool := match s with "" => true | String c t => negb (Ascii.eqb c "-") && dashless t end.
Lemma dashless_app : forall a b, dashless (a ++ b) = dashless a && dashless b.
Proof. induction a as [|c a IH]; intros b; cbn; [reflexivity|]. rewrite IH, andb_assoc. reflexivity. Qed.
Lemma first_dash : forall a b x y, dashless a = true -> dashless b = true -> a ++ "-" ++ x = b ++ "-" ++ y -> a = b /\ x = y.
Proof.
  induction a as [|c a IH]; intros [|d b] x y A B E; cbn in *.
  - injection E as ->. auto.
  - injection E as <- E. discriminate B.
  - injection E as -> E. discriminate A.
  - injection E as <- E. apply andb_prop in A, B. destruct (IH b x y (proj2 A) (proj2 B) E) as [-> ->]. auto.
Qed.
Lemma last_dash : forall a b x y, dashless x = true -> dashless y = true -> a ++ "-" ++ x = b ++ "-" ++ y -> a = b /\ x = y.
Proof.
  induction a as [|c a IH]; intros [|d b] x y A B E; cbn in *.
  - injection E as ->. auto.
  - injection E as <- E. subst x. rewrite dashless_app in A. cbn in A. rewrite andb_false_r in A. discriminate A.
  - injection E as -> E. subst y. rewrite dashless_app in B. cbn in B. rewrite andb_false_r in B. discriminate B.
  - injection E as <- E. destruct (IH b x y A B E) as [-> ->]. auto.
Qed.
Definition one_octant : re := Eval cbv in
  RSeq (RCls [("N", "N"); ("S", "S"); ("W", "W"); ("E", "E")]%char) (ROpt (RCls [("W", "W"); ("E", "E")]%char)).
Definition between : re := Eval cbv in match rgx_sector with RSeq _ (RSeq (RStar b) _) => b | _ => REps end.
Ltac in_words H X := lazymatch type of H with Lang ?r ?s =>
  let w := eval vm_compute in (words r) in lazymatch w with Some ?l =>
    assert (X : In s l) by (apply (lang_words r s H l); vm_compute; reflexivity); cbn [In] in X end end.
Lemma between_lang : forall m, Lang (RStar between) m <-> Between m.
Proof.
  intros m. split.
  - intros H. remember (RStar between) as r eqn:E. induction H; try discriminate E; [constructor|].
    injection E as ->. specialize (IHLang2 eq_refl).
    in_words H X. repeat (destruct X as [<-|X]; [|]); try contradiction.
    all: match goal with |- Between (String _ ?x ++ ?q) => apply (Between_more x q); [cbn; tauto|assumption] end.
  - intros H. induction H as [|x m Hx Hm IH]; [constructor|].
    rewrite <- sapp_assoc. apply L_star1; [|exact IH].
    cbn [In] in Hx. repeat (destruct Hx as [<-|Hx]; [apply is_match_lang; vm_compute; reflexivity|]). contradiction.
Qed.
Lemma between_dash : forall m x, Between m -> exists y, m ++ "-" ++ x = "-" ++ y.
Proof. intros m x [|y m' _ _]; cbn; eauto. Qed.
Lemma octant_lang : forall v o, In (v, o) octant_names -> Lang one_octant v.
Proof. intros v o H. apply is_match_lang. cbn [octant_names In] in H. repeat (destruct H as [H|H]; [injection H as <- <-; vm_compute; reflexivity|]). contradiction. Qed.
Lemma octant_dashless : forall v, Lang one_octant v -> dashless v = true.
Proof. intros v H. in_words H X. repeat (destruct X as [<-|X]; [reflexivity|]). contradiction. Qed.
Lemma octant_name : forall v, Lang one_octant v -> forall d, Direction_fromCardinalString v false false = Some d ->
  exists i, (i < 8)%nat /\ In (v, octant i) octant_names /\ d = towards (octant i).
Proof.
  intros v H d E. in_words H X.
  repeat (destruct X as [<-|X]; [vm_compute in E; try discriminate E; injection E as <-;
    first [ exists 0%nat; split; [lia|split; [vm_compute; tauto|reflexivity]] | exists 1%nat; split; [lia|split; [vm_compute; tauto|reflexivity]]
          | exists 2%nat; split; [lia|split; [vm_compute; tauto|reflexivity]] | exists 3%nat; split; [lia|split; [vm_compute; tauto|reflexivity]]
          | exists 4%nat; split; [lia|split; [vm_compute; tauto|reflexivity]] | exists 5%nat; split; [lia|split; [vm_compute; tauto|reflexivity]]
          | exists 6%nat; split; [lia|split; [vm_compute; tauto|reflexivity]] | exists 7%nat; split; [lia|split; [vm_compute; tauto|reflexivity]] ]|]).
  contradiction.
Qed.
Lemma octant_read : forall v o a b, In (v, o) octant_names -> Direction_fromCardinalString v a b = Some (towards o).
Proof. intros v o a b H. cbn [octant_names In] in H. repeat (destruct H as [H|H]; [injection H as <- <-; destruct a, b; vm_compute; reflexivity|]). contradiction. Qed.
Lemma sector_caps : forall s m, regex_match rgx_sector s = Some m ->
  exists v k w, s = v ++ k ++ "-" ++ w /\ Lang one_octant v /\ Between k /\ Lang one_octant w /\ mstr m 1 = v /\ mstr m 2 = w.
Proof.
  intros s m H. apply regex_match_captures in H. unfold rgx_sector in H. captures H. apply lang_char in L1. subst p1.
  exists p, p0, q. repeat split; try assumption. apply between_lang. assumption.
Qed.
Lemma sector_parse : forall s a b, Direction_fromSectorString s = Some (a, b) <->
  exists v m w i j, s = v ++ m ++ "-" ++ w /\ (i < 8)%nat /\ (j < 8)%nat /\ In (v, octant i) octant_names /\ Between m
    /\ In (w, octant j) octant_names /\ a = towards (octant i) /\ b = towards (octant j).
Proof.
  intros s a b. split.
  - intros H. unfold Direction_fromSectorString in H. destruct (regex_match rgx_sector s) as [m|] eqn:E; [|discriminate H].
    destruct (sector_caps _ _ E) as (v & k & w & -> & V & K & W & Ev & Ew). rewrite Ev, Ew in H.
    destruct (Direction_fromCardinalString v false false) as [d|] eqn:D; [|discriminate H].
    destruct (Direction_fromCardinalString w false false) as [e|] eqn:F; [|discriminate H]. injection H as -> ->.
    destruct (octant_name _ V _ D) as (i & Li & Hi & ->). destruct (octant_name _ W _ F) as (j & Lj & Hj & ->).
    exists v, k, w, i, j. auto 12.
  - intros (v & k & w & i & j & -> & Li & Lj & Hi & K & Hj & -> & ->).
    pose proof (octant_lang _ _ Hi) as V. pose proof (octant_lang _ _ Hj) as W.
    assert (M : is_match rgx_sector (v ++ k ++ "-" ++ w) = true).
    { apply is_match_lang. apply L_seq; [apply L_grp; exact V|]. apply L_seq; [apply between_lang; exact K|].
      apply L_seq; [apply is_match_lang; reflexivity|apply L_grp; exact W]. }
    unfold is_match in M. unfold Direction_fromSectorString.
    destruct (regex_match rgx_sector (v ++ k ++ "-" ++ w)) as [m|] eqn:E; [|discriminate M].
    destruct (sector_caps _ _ E) as (v' & k' & w' & E' & V' & K' & W' & Ev & Ew). rewrite Ev, Ew.
    assert (v = v' /\ w = w') as [<- <-].
    { destruct (between_dash k w K) as (y & Y). destruct (between_dash k' w' K') as (y' & Y').
      split.
      - rewrite Y, Y' in E'. apply first_dash in E'; [apply E'| |]; apply octant_dashless; assumption.
      - rewrite <- (sapp_assoc v), <- (sapp_assoc v') in E'.
        apply (last_dash (v ++ k) (v' ++ k')) in E'; [apply E'| |]; apply octant_dashless; assumption. }
    rewrite (octant_read _ _ _ _ Hi), (octant_read _ _ _ _ Hj). reflexivity.
Qed.

(** ** Bearings *)
Definition place (s : string) : option (option Direction * option Direction) :=
  match Direction_fromCardinalString s true false with
  | Some d => Some (Some d, None)
  | None => match Direction_fromSectorString s with Some (a, b) => Some (Some a, Some b) | None => None end
  end.
Definition vector (p : option Direction * option Direction) : res (list Direction) :=
  Direction_sectorCardinalDirToVector (opt_default (fst p) Direction_default) (opt_default (snd p) Direction_default).
Definition singles : list Direction := (map (fun n => towards (snd n)) octant_names ++ map (fun n => mkDir 0 (snd n)) other_names)%list.
Definition areas : list (option Direction * option Direction) :=
  (map (fun d => (Some d, None)) singles
   ++ flat_map (fun i => map (fun j => (Some (towards (octant i)), Some (towards (octant j)))) (seq 0 8)) (seq 0 8))%list.
Lemma cardinal_single : forall s d, Direction_fromCardinalString s true false = Some d <->
  (exists o, In (s, o) octant_names /\ d = towards o) \/ (exists t, In (s, t) other_names /\ d = mkDir 0 t).
Proof.
  intros s d. split.
  - intros H. destruct (cardinal_names _ _ _ _ H) as [(o & Ho & _)|[(-> & _)|[(-> & _)|[(-> & _)|(_ & X & _)]]]].
    + left. exists o. split; [exact Ho|]. rewrite (octant_read _ _ _ _ Ho) in H. congruence.
    + right. cbn in H. injection H as <-. eexists. split; [left; reflexivity|reflexivity].
    + right. cbn in H. injection H as <-. eexists. split; [right; left; reflexivity|reflexivity].
    + right. cbn in H. injection H as <-. eexists. split; [right; right; left; reflexivity|reflexivity].
    + discriminate X.
  - intros [(o & Ho & ->)|(t & Ht & ->)]; [apply octant_read; exact Ho|].
    cbn [other_names In] in Ht. repeat (destruct Ht as [Ht|Ht]; [injection Ht as <- <-; reflexivity|]). contradiction.
Qed.
Lemma vector_single : forall d, In d singles -> vector (Some d, None) = Ok [d].
Proof.
  intros d H. assert (X : forallb (fun d => match vector (Some d, None) with Ok [e] => (dirDegrees d =? dirDegrees e) && DirType_beq (dirType d) (dirType e) | _ => false end) singles = true) by (vm_compute; reflexivity).
  rewrite forallb_forall in X. specialize (X d H). destruct (vector (Some d, None)) as [[|e [|]]|]; try discriminate X.
  apply andb_prop in X. destruct X as [X Y]. apply N.eqb_eq in X. apply internal_DirType_dec_bl in Y. destruct d, e. cbn in *. congruence.
Qed.
Lemma octant_single : forall s o, In (s, o) octant_names -> In (towards o) singles.
Proof. intros s o H. apply in_app_iff. left. apply in_map_iff. exists (s, o). auto. Qed.
Lemma other_single : forall s t, In (s, t) other_names -> In (mkDir 0 t) singles.
Proof. intros s o H. apply in_app_iff. right. apply in_map_iff. exists (s, o). auto. Qed.
Lemma octant_cardinal : forall i, (i < 8)%nat -> Direction_cardinal (towards (octant i)) false = fst (octant i).
Proof. intros i H. do 8 (destruct i as [|i]; [reflexivity|]). lia. Qed.
Lemma bearing_place : forall s l, Bearing s l <-> exists p, place s = Some p /\ vector p = Ok l.
Proof.
  intros s l. split.
  - intros [w o H|w t H|v m w i j Li Lj Hv Hm Hw].
    + exists (Some (towards o), None). unfold place. rewrite (proj2 (cardinal_single w (towards o))) by eauto.
      split; [reflexivity|]. apply vector_single. eapply octant_single; eauto.
    + exists (Some (mkDir 0 t), None). unfold place. rewrite (proj2 (cardinal_single w (mkDir 0 t))) by eauto.
      split; [reflexivity|]. apply vector_single. eapply other_single; eauto.
    + exists (Some (towards (octant i)), Some (towards (octant j))). unfold place.
      rewrite (proj2 (sector_parse (v ++ m ++ "-" ++ w) (towards (octant i)) (towards (octant j)))) by eauto 20.
      destruct (Direction_fromCardinalString (v ++ m ++ "-" ++ w) true false) eqn:E.
      * exfalso. destruct (between_dash m w Hm) as (y & Y). rewrite Y in E.
        assert (X : dashless (v ++ "-" ++ y) = true).
        { apply cardinal_names in E. destruct E as [(o & Ho & _)|[(-> & _)|[(-> & _)|[(-> & _)|(_ & X & _)]]]]; try reflexivity; try discriminate X.
          apply octant_lang, octant_dashless in Ho. exact Ho. }
        rewrite dashless_app in X. cbn in X. rewrite andb_false_r in X. discriminate X.
      * split; [reflexivity|]. apply sectors; try assumption; apply octant_cardinal; assumption.
  - intros (p & H & V). unfold place in H. destruct (Direction_fromCardinalString s true false) as [d|] eqn:E.
    + injection H as <-. apply cardinal_single in E. destruct E as [(o & Ho & ->)|(t & Ht & ->)].
      * rewrite vector_single in V by (eapply octant_single; eauto). injection V as <-. constructor. exact Ho.
      * rewrite vector_single in V by (eapply other_single; eauto). injection V as <-. constructor. exact Ht.
    + destruct (Direction_fromSectorString s) as [[a b]|] eqn:F; [|discriminate H]. injection H as <-.
      apply sector_parse in F. destruct F as (v & m & w & i & j & -> & Li & Lj & Hi & M & Hj & -> & ->).
      unfold vector in V. cbn [fst snd opt_default] in V. rewrite (sectors i j) in V by (try assumption; apply octant_cardinal; assumption).
      injection V as <-. apply Bearing_sector; assumption.
Qed.
Lemma place_area : forall s p, place s = Some p -> In p areas.
Proof.
  intros s p H. unfold place in H. apply in_app_iff. destruct (Direction_fromCardinalString s true false) as [d|] eqn:E.
  - left. injection H as <-. apply in_map_iff. exists d. split; [reflexivity|].
    apply cardinal_single in E. destruct E as [(o & Ho & ->)|(t & Ht & ->)]; [eapply octant_single|eapply other_single]; eauto.
  - right. destruct (Direction_fromSectorString s) as [[a b]|] eqn:F; [|discriminate H]. injection H as <-.
    apply sector_parse in F. destruct F as (v & m & w & i & j & -> & Li & Lj & _ & _ & _ & -> & ->).
    apply in_flat_map. exists i. split; [apply in_seq; lia|]. apply in_map_iff. exists j. split; [reflexivity|apply in_seq; lia].
Qed.

(** ** Two areas *)
Definition dir_eqb (a b : Direction) : bool := (dirDegrees a =? dirDegrees b) && DirType_beq (dirType a) (dirType b).
Lemma dir_eqb_eq : forall a b, dir_eqb a b = true <-> a = b.
Proof.
  intros [x t] [y u]. unfold dir_eqb. cbn. rewrite andb_true_iff, N.eqb_eq. split.
  - intros [-> H]. apply internal_DirType_dec_bl in H. congruence.
  - intros H. injection H as -> ->. split; [reflexivity|]. apply internal_DirType_dec_lb. reflexivity.
Qed.
Definition inb (d : Direction) (l : list Direction) : bool := existsb (dir_eqb d) l.
Lemma inb_in : forall d l, inb d l = true <-> In d l.
Proof.
  intros d l. unfold inb. rewrite existsb_exists. split; [intros (x & H & E); apply dir_eqb_eq in E; subst; exact H|].
  intros H. exists d. split; [exact H|]. apply dir_eqb_eq. reflexivity.
Qed.
Fixpoint distinct (l : list Direction) : bool := match l with [] => true | d :: t => negb (inb d t) && distinct t end.
Lemma distinct_nodup : forall l, distinct l = true -> NoDup l.
Proof.
  induction l as [|d l IH]; intros H; constructor; cbn in H; apply andb_prop in H; destruct H as [A B]; [|exact (IH B)].
  intros I. apply inb_in in I. rewrite I in A. discriminate A.
Qed.
Fixpoint same_list (a b : list Direction) : bool :=
  match a, b with [], [] => true | x :: a, y :: b => dir_eqb x y && same_list a b | _, _ => false end.
Lemma same_list_eq : forall a b, same_list a b = true -> a = b.
Proof.
  induction a as [|x a IH]; intros [|y b] H; try discriminate H; [reflexivity|].
  cbn in H. apply andb_prop in H. destruct H as [A B]. apply dir_eqb_eq in A. rewrite A, (IH b B). reflexivity.
Qed.
Definition new_ones (l1 l2 : list Direction) : list Direction := filter (fun d => negb (inb d l1)) l2.
Definition two_areas (p q : option Direction * option Direction) : bool :=
  match vector p, vector q, sector_directions (fst p) (snd p) (fst q) (snd q) with
  | Ok l1, Ok l2, Ok l => same_list l (l1 ++ new_ones l1 l2) && distinct l && Nat.leb (List.length l) 9
  | _, _, _ => false
  end.
Definition maybe : list (option Direction * option Direction) := (None, None) :: areas.
Lemma areas_checked : forallb (fun p => forallb (two_areas p) maybe) maybe = true.
Proof. vm_compute. reflexivity. Qed.
Lemma new_without : forall l1 l2, Without l1 l2 (new_ones l1 l2).
Proof.
  intros l1 l2. unfold new_ones. induction l2 as [|d l2 IH]; cbn [filter]; [constructor|].
  destruct (inb d l1) eqn:E; cbn [negb]; constructor; try exact IH; [apply inb_in; exact E|].
  intros H. apply inb_in in H. congruence.
Qed.
Lemma areas_together : forall p q, In p maybe -> In q maybe ->
  exists l1 l2 l, vector p = Ok l1 /\ vector q = Ok l2 /\ sector_directions (fst p) (snd p) (fst q) (snd q) = Ok l
    /\ Together l1 l2 l /\ NoDup l /\ (List.length l <= 9)%nat.
Proof.
  intros p q P Q. pose proof areas_checked as C. rewrite forallb_forall in C. specialize (C p P).
  rewrite forallb_forall in C. specialize (C q Q). unfold two_areas in C.
  destruct (vector p) as [l1|]; [|discriminate C]. destruct (vector q) as [l2|]; [|discriminate C].
  destruct (sector_directions (fst p) (snd p) (fst q) (snd q)) as [l|]; [|discriminate C].
  apply andb_prop in C. destruct C as [C L]. apply andb_prop in C. destruct C as [C D].
  exists l1, l2, l. repeat (split; [reflexivity|]). split; [|split; [apply distinct_nodup; exact D|apply Nat.leb_le; exact L]].
  exists (new_ones l1 l2). split; [apply new_without|apply same_list_eq; exact C].
Qed.
Lemma without_unique : forall l1 l2 l, Without l1 l2 l -> l = new_ones l1 l2.
Proof.
  intros l1 l2 l H. induction H as [|d l l' D H IH|d l l' D H IH]; [reflexivity| |]; unfold new_ones in *; cbn [filter]; apply inb_in in D || (assert (D' : inb d l1 = false) by (destruct (inb d l1) eqn:E; [apply inb_in in E; contradiction|reflexivity])).
  - rewrite D. exact IH.
  - rewrite D'. cbn [negb]. rewrite IH. reflexivity.
Qed.
Lemma together_unique : forall l1 l2 l l', Together l1 l2 l -> Together l1 l2 l' -> l = l'.
Proof. intros l1 l2 l l' (a & A & ->) (b & B & ->). rewrite (without_unique _ _ _ A), (without_unique _ _ _ B). reflexivity. Qed.
Lemma bearing_unique : forall w l l', Bearing w l -> Bearing w l' -> l = l'.
Proof. intros w l l' A B. apply bearing_place in A, B. destruct A as (p & P & A), B as (q & Q & B). congruence. Qed.
Lemma bearing_opt_unique : forall b l l', Bearing_opt b l -> Bearing_opt b l' -> l = l'.
Proof. intros b l l' A B. destruct A as [|w l A]; inversion B; subst; [reflexivity|]. eapply bearing_unique; eassumption. Qed.
