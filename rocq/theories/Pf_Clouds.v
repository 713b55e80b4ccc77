(** C52: cloud groups. *)
From Coq Require Import Lia ZifyBool ZifyN ZifyNat.
From Verif Require Import Prim Lib Regex Float Values Weather Groups1 Groups2 Groups3 Groups4 Parser SpecRegex SpecTokens SpecReads SpecText SpecForm
  SpecReach SpecBuilt SpecAssembled SpecAppend SpecDecimal SpecNumeral SpecMiles SpecDirection SpecNearby SpecTexts.
From Verif Require Import Pf_Ok Pf_OkValues Pf_OkGroups2 Pf_Caps Pf_Regex Pf_Total Pf_Steps Pf_Kinds Pf_View Pf_Decimal Pf_Numeral Pf_Form Pf_Shapes Pf_Decode Pf_Layout
  Pf_Values3 Pf_Texts Pf_Assembled Pf_Grown Pf_Refuse Pf_Settled Pf_Waits Pf_Cloud Pf_VisTexts Pf_RunwayRange Pf_Visibility.
From Verif Require Import SpecVisibility SpecCloud SpecClouds.
Local Open Scope string_scope.

(** ** Texts *)
Definition re_amount : re := Eval vm_compute in rx "[A-Z][A-Z][A-Z]?|///".
Definition re_three : re := Eval vm_compute in rx "[A-Z][A-Z][A-Z]".
Definition re_height : re := Eval vm_compute in rx "\d\d\d|///".
Definition re_conv : re := Eval vm_compute in rx "[CT][BC][U]?|///".
Definition like (r : re) (o : option string) : Prop := match o with Some x => Lang r x | None => True end.
Lemma cloud_match : forall s m, regex_match rgx_cloud s = Some m <->
  exists w h c, s = w ++ h ++ some_text c /\ m = (some_cap 3 c ++ [(2, h); (1, w)])%nat%list /\ Lang re_amount w /\ Lang re_height h /\ like re_conv c.
Proof.
  intros s m. split.
  - intros R. apply regex_match_captures in R. unfold rgx_cloud in R. captures R.
    + eexists _, _, None. split; [reflexivity|]. split; [reflexivity|]. cbn [like]. auto.
    + eexists _, _, (Some _). split; [reflexivity|]. split; [reflexivity|]. cbn [like]. auto.
  - intros (w & h & c & -> & -> & A & H & C). destruct c as [c|]; cbn [like some_text some_cap app] in *; cap_match.
Qed.
Lemma amount_match : forall s m, regex_match rgx_varcloud s = Some m <->
  exists w h, s = w ++ some_text h /\ m = (some_cap 2 h ++ [(1, w)])%nat%list /\ Lang re_three w /\ match h with Some x => exists v, numeral 3 x v | None => True end.
Proof.
  intros s m. split.
  - intros R. apply regex_match_captures in R. unfold rgx_varcloud in R. captures R.
    + eexists _, None. split; [reflexivity|]. split; [reflexivity|]. auto.
    + destruct (digits_n _ 3 _ L0) as (n & N & _); [reflexivity..|lia|]. eexists _, (Some _). split; [reflexivity|]. split; [reflexivity|]. eauto.
  - intros (w & h & -> & -> & A & H). destruct h as [h|]; [destruct H as (v & H)|]; cbn [some_text some_cap app] in *; cap_match.
Qed.
Lemma obscured_match : forall s m, regex_match rgx_obscuration s = Some m <->
  exists w h v, s = w ++ h /\ m = [(2, h); (1, w)]%nat /\ Lang re_three w /\ numeral 3 h v.
Proof.
  intros s m. split.
  - intros R. apply regex_match_captures in R. unfold rgx_obscuration in R. captures R.
    destruct (digits_n _ 3 _ L0) as (n & N & _); [reflexivity..|lia|]. eauto 10.
  - intros (w & h & v & -> & -> & A & H). cap_match.
Qed.
Lemma ceiling_match : forall s m, regex_match rgx_ceiling s = Some m <->
  exists a b u v, s = a ++ "V" ++ b /\ m = [(2, b); (1, a)]%nat /\ numeral 3 a u /\ numeral 3 b v.
Proof.
  intros s m. split.
  - intros R. apply regex_match_captures in R. unfold rgx_ceiling in R. captures R.
    in_words L0 X. destruct X as [<-|[]].
    destruct (digits_n _ 3 _ L) as (n & N & _); [reflexivity..|lia|]. destruct (digits_n _ 3 _ L1) as (n' & N' & _); [reflexivity..|lia|]. eauto 10.
  - intros (a & b & u & v & -> & -> & A & B). cap_match.
Qed.
Definition hundreds (v : N) : Distance := mkDist DM_NONE (Some (100 * v)%N) FEET.
Lemma height_some : forall h v, numeral 3 h v -> Distance_fromHeightString h = Ok (Some (hundreds v)).
Proof. intros h v N. apply height_text. right. eauto. Qed.
Lemma numeral_height : forall h v, numeral 3 h v -> Height_number h (hundreds v).
Proof. intros h v N. split; [right; eauto|]. intros ->. destruct N as [_ N]. discriminate N. Qed.
Lemma height_numeral : forall h d, Height_number h d -> exists v, numeral 3 h v /\ d = hundreds v.
Proof. intros h d [[[-> _]|X] N]; [contradiction|exact X]. Qed.
Lemma height_lang : forall h d, Height h d -> Lang re_height h.
Proof. intros h d [[-> _]|(v & N & _)]; [apply closed_lang; reflexivity|]. apply L_alt1. apply (numeral_lang _ _ _ _ N). reflexivity. Qed.
Lemma amount_words : forall w a, Cloud_amountFromString w = Some a -> w = "VV" /\ a = Am_OBSCURED \/ In (w, (a, Cloud_amountToMaxOkta a)) amount_or_not.
Proof. intros w a H. apply lookup_codes in H. cbn [In] in H. intuition; match goal with H : (_, _) = (_, _) |- _ => injection H as <- <- end; cbn [In amount_or_not amounts app]; auto 10. Qed.
Lemma amount_letters : forall w a, Cloud_amountFromString w = Some a -> Lang re_three w -> In (w, (a, Cloud_amountToMaxOkta a)) amounts.
Proof.
  intros w a H L. apply amount_words in H. destruct H as [[-> ->]|H]; [apply is_match_lang in L; discriminate L|].
  apply in_app_or in H. destruct H as [H|[H|[]]]; [exact H|]. injection H as <- <-. apply is_match_lang in L. discriminate L.
Qed.
Lemma amount_read : forall w a k, In (w, (a, k)) amount_or_not -> Cloud_amountFromString w = Some a /\ k = Cloud_amountToMaxOkta a /\ Lang re_amount w /\ ClAmount_beq a Am_OBSCURED = false.
Proof. intros w a k H. cbn [In amount_or_not amounts app] in H. intuition; match goal with H : (_, _) = (_, _) |- _ => injection H as <- <- <- end; try reflexivity; apply closed_lang; reflexivity. Qed.
Lemma amount_of : forall w a k, In (w, (a, k)) amounts -> Cloud_amountFromString w = Some a /\ k = Cloud_amountToMaxOkta a /\ Lang re_three w.
Proof. intros w a k H. cbn [In amounts] in H. intuition; match goal with H : (_, _) = (_, _) |- _ => injection H as <- <- <- end; try reflexivity; apply closed_lang; reflexivity. Qed.
Lemma conv_words : forall w c, Cloud_convectiveTypeFromString w = Some c -> In (w, (c, Cloud_convectiveTypeToCloudTypeType c)) convective.
Proof. intros w a H. apply lookup_codes in H. cbn [In] in H. intuition; match goal with H : (_, _) = (_, _) |- _ => injection H as <- <- end; cbn [In convective]; auto 10. Qed.

(** ** States *)
Definition variable_layer (a : ClAmount) (h : Distance) (i : ClInc) : CloudGroup :=
  mkCloud Cl_CLOUD_LAYER a h Distance_default Cv_NONE None None CloudType_default i.
Definition ceiling (h : Distance) (i : ClInc) : CloudGroup := mkCloud Cl_CEILING Am_NOT_REPORTED h Distance_default Cv_NONE None None CloudType_default i.
Definition ceilings (low high : Distance) (i : ClInc) : CloudGroup := mkCloud Cl_VARIABLE_CEILING Am_NOT_REPORTED low high Cv_NONE None None CloudType_default i.
Definition layer_height (h : string) (d : Distance) : Prop := Height_number h d \/ h = "" /\ d = mkDist DM_NONE None METERS.
Inductive State (part : ReportPart) : list string -> CloudGroup -> Prop :=
| St_told : forall ws g, Clouds part ws (sky_of g) -> cl_inc g = ClI_NONE -> State part ws g
| St_cld : part = RP_RMK -> State part ["CLD"] (Cloud_of Cl_CLD_MISG Am_NOT_REPORTED ClI_CLD)
| St_cig : part = RP_RMK -> State part ["CIG"] (Cloud_of Cl_CEILING Am_NOT_REPORTED ClI_CIG)
| St_chino : part = RP_RMK -> State part ["CHINO"] (Cloud_of Cl_CHINO Am_NOT_REPORTED ClI_CHINO)
| St_ceiling : forall h d, part = RP_RMK -> Height_number h d -> State part ["CIG"; h] (ceiling d ClI_CIG_NUM)
| St_ceilings : forall a b low high, part = RP_RMK -> Height_number a low -> Height_number b high -> State part ["CIG"; a ++ "V" ++ b] (ceilings low high ClI_CIG_NUM)
| St_obscuration : forall w t, part = RP_RMK -> In (w, t) obscurations ->
    State part [w] (mkCloud Cl_OBSCURATION Am_NOT_REPORTED Distance_default Distance_default Cv_NONE None None (mkCloudType t Distance_default 0) ClI_OBSCURATION)
| St_amount : forall w a k h d, part = RP_RMK -> In (w, (a, k)) amounts -> layer_height h d -> State part [w ++ h] (variable_layer a d ClI_RMK_AMOUNT)
| St_amount_v : forall w a k h d, part = RP_RMK -> In (w, (a, k)) amounts -> layer_height h d -> State part [w ++ h; "V"] (variable_layer a d ClI_RMK_AMOUNT_V).
Definition completed (i : ClInc) : bool := match i with ClI_NONE | ClI_CIG_NUM | ClI_CHINO => true | _ => false end.
Lemma completed_told : forall part ws g, State part ws g -> completed (cl_inc g) = true -> Clouds part ws (sky_of g).
Proof.
  intros part ws g H C. destruct H as [ws g H _| | |P|h d P H|a b low high P A B| | |]; try discriminate C.
  - exact H.
  - exact (Clouds_chino part [] None None P Site_none).
  - exact (Clouds_ceiling part h d [] None None P H Site_none).
  - exact (Clouds_variable_ceiling part a b low high [] None None P A B Site_none).
Qed.
Lemma layer_words : forall s g, Cloud_parseCloudLayerOrVertVis s = Ok (Some g) ->
  (forall part, part = RP_METAR \/ part = RP_TAF -> Clouds part [s] (sky_of g)) /\ cl_inc g = ClI_NONE.
Proof.
  intros s g H. unfold Cloud_parseCloudLayerOrVertVis in H. cbv zeta in H.
  repeat (match type of H with context [seqb s ?x] => destruct (seqb s x) eqn:E; [apply seqb_eq in E; subst s; injection H as <-; split; [intros part P|reflexivity];
    apply Clouds_none; [exact P|cbn; auto 10]|clear E] end).
  destruct (regex_match rgx_cloud s) as [m|] eqn:R; [|discriminate H]. apply cloud_match in R. destruct R as (w & h & c & -> & -> & W & Hh & C).
  assert (M1 : mstr (some_cap 3 c ++ [(2, h); (1, w)])%nat%list 1 = w) by (destruct c; reflexivity).
  assert (M2 : mstr (some_cap 3 c ++ [(2, h); (1, w)])%nat%list 2 = h) by (destruct c; reflexivity).
  assert (M3 : mstr (some_cap 3 c ++ [(2, h); (1, w)])%nat%list 3 = some_text c) by (destruct c; reflexivity).
  rewrite M1, M2, M3 in H. clear M1 M2 M3.
  destruct (Cloud_amountFromString w) as [a|] eqn:A; [|discriminate H].
  apply bind_some in H. destruct H as (d & D & H). apply height_text in D.
  destruct (Cloud_convectiveTypeFromString (some_text c)) as [v|] eqn:V; [|discriminate H]. apply conv_words in V.
  destruct (_ && _) eqn:N in H; [discriminate H|]. injection H as <-. split; [intros part P|reflexivity].
  apply amount_words in A. destruct A as [[-> ->]|A].
  - cbn in N. destruct v; try discriminate N. cbn [In convective] in V.
    assert (E : some_text c = "") by (intuition congruence). rewrite E, app_empty_r. cbn. exact (Clouds_vertical part h d P D).
  - destruct (amount_read _ _ _ A) as (_ & _ & _ & B). rewrite B. exact (Clouds_layer part w h (some_text c) a _ d v _ P A D V).
Qed.
Lemma amount_first : forall s g, Cloud_parseVariableCloudLayer s = Ok (Some g) ->
  exists w a k h d, s = w ++ h /\ In (w, (a, k)) amounts /\ layer_height h d /\ g = variable_layer a d ClI_RMK_AMOUNT.
Proof.
  intros s g H. unfold Cloud_parseVariableCloudLayer in H.
  destruct (regex_match rgx_varcloud s) as [m|] eqn:R; [|discriminate H]. apply amount_match in R. destruct R as (w & h & -> & -> & W & Hh).
  assert (M1 : mstr (some_cap 2 h ++ [(1, w)])%nat%list 1 = w) by (destruct h; reflexivity).
  assert (M2 : mstr (some_cap 2 h ++ [(1, w)])%nat%list 2 = some_text h) by (destruct h; reflexivity).
  rewrite M1, M2 in H. destruct (Cloud_amountFromString w) as [a|] eqn:A; [|discriminate H]. pose proof (amount_letters _ _ A W) as I. cbv zeta in H.
  destruct h as [h|]; cbn [some_text] in *.
  - destruct Hh as (v & N). destruct (sempty h) eqn:E; [destruct h; [destruct N as [N _]; discriminate N|discriminate E]|]. cbn [negb] in H.
    rewrite (height_some _ _ N) in H. cbn [bind] in H. injection H as <-. exists w, a, (Cloud_amountToMaxOkta a), h, (hundreds v).
    split; [reflexivity|]. split; [exact I|]. split; [left; exact (numeral_height _ _ N)|reflexivity].
  - injection H as <-. exists w, a, (Cloud_amountToMaxOkta a), "", Distance_default. split; [reflexivity|]. split; [exact I|]. split; [right; split; reflexivity|reflexivity].
Qed.
Lemma cloud_first : forall w part md g, CloudGroup_parse w part md = Ok (Some g) -> State part [w] g.
Proof.
  intros w part md g H. unfold CloudGroup_parse in H.
  destruct (is_part part RP_METAR || is_part part RP_TAF) eqn:P.
  { apply layer_words in H. destruct H as [H C]. apply St_told; [apply H; destruct part; try discriminate P; auto|exact C]. }
  destruct (is_part part RP_RMK) eqn:Q; [|discriminate H]. assert (part = RP_RMK) by (destruct part; try discriminate Q; reflexivity). subst part.
  destruct (seqb w "CLD") eqn:E; [apply seqb_eq in E; subst w; injection H as <-; constructor; reflexivity|clear E].
  destruct (seqb w "CIG") eqn:E; [apply seqb_eq in E; subst w; injection H as <-; constructor; reflexivity|clear E].
  destruct (seqb w "CHINO") eqn:E; [apply seqb_eq in E; subst w; injection H as <-; constructor; reflexivity|clear E].
  destruct (CloudType_fromStringObscuration w) as [ct|] eqn:O.
  - injection H as <-. unfold CloudType_fromStringObscuration in O. destruct (lookup _ _) as [t|] eqn:L in O; [|discriminate O]. injection O as <-. apply lookup_codes in L. apply St_obscuration; [reflexivity|exact L].
  - apply amount_first in H. destruct H as (x & a & k & h & d & -> & I & L & ->). eapply St_amount; eauto.
Qed.
Definition sited (g : CloudGroup) (r : option Runway) (d : option Direction) : CloudGroup :=
  mkCloud (cl_tp g) (cl_amnt g) (cl_h g) (cl_maxHt g) (cl_conv g) r d (cl_cldTp g) ClI_NONE.
Lemma site_words : forall g w g' a, cl_dir g = None -> Cloud_appendRunwayOrCardinalDirection g w = Ok (g', a) ->
  a = APPENDED /\ (exists r d, Site [w] r d /\ g' = sited g r d) \/ a = NOT_APPENDED /\ g' = sited g None None.
Proof.
  intros g w g' a N H. unfold Cloud_appendRunwayOrCardinalDirection in H. destruct (Runway_fromString w true) as [[r|]|] eqn:R; [| |discriminate H]; cbn [bind] in H.
  - injection H as <- <-. left. split; [reflexivity|]. exists (Some r), None. split; [constructor; apply runway_text; exact R|]. unfold sited. rewrite N. reflexivity.
  - cbv zeta in H. destruct (Direction_fromCardinalString w false false) as [d|] eqn:D; injection H as <- <-; [left|right; split; reflexivity].
    split; [reflexivity|]. exists None, (Some d). split; [|reflexivity]. apply place_cardinal in D. inversion D; subst; constructor; assumption.
Qed.
Lemma site_read : forall w r d g, Site [w] r d -> cl_dir g = None -> Cloud_appendRunwayOrCardinalDirection g w = Ok (sited g r d, APPENDED).
Proof.
  intros w r d g H N. unfold Cloud_appendRunwayOrCardinalDirection. inversion H as [|x y T E|x o I|]; subst.
  - rewrite (proj2 (runway_text w true y) T). cbn [bind]. unfold sited. rewrite N. reflexivity.
  - assert (E : Runway_fromString w true = Ok None) by (cbn [octant_names In] in I; repeat (destruct I as [I|I]; [injection I as <- <-; vm_compute; reflexivity|]); contradiction).
    rewrite E. cbn [bind]. rewrite (Pf_Nearby.octant_read _ _ _ _ I). reflexivity.
  - reflexivity.
Qed.
Lemma cloud_next : forall part ws g w md g', State part ws g -> CloudGroup_append g w part md = Ok (g', APPENDED) -> State part (ws ++ [w]) g'.
Proof.
  intros part ws g w md g' H A. unfold CloudGroup_append in A. destruct H as [ws g H C|P|P|P|h d P H|a b low high P Ha Hb|x t P O|x a k h d P I L|x a k h d P I L]; cbn [app].
  - rewrite C in A. discriminate A.
  - cbn [cl_inc Cloud_of] in A. destruct (seqb w "MISG") eqn:E; [|discriminate A]. apply seqb_eq in E. subst w. injection A as <-.
    apply St_told; [|reflexivity]. exact (Clouds_missing part P).
  - cbn [cl_inc Cloud_of] in A. unfold Cloud_appendCeiling in A. destruct (Distance_fromHeightString w) as [[h|]|] eqn:D; [| |discriminate A]; cbn [bind] in A.
    + apply height_text in D. destruct (Distance_isReported h) eqn:R; [|discriminate A]. injection A as <-. apply St_ceiling; [exact P|]. split; [exact D|].
      intros ->. destruct D as [[_ ->]|(v & [_ N] & _)]; [discriminate R|discriminate N].
    + destruct (regex_match rgx_ceiling w) as [m|] eqn:R; [|discriminate A]. apply ceiling_match in R. destruct R as (a & b & u & v & -> & -> & Na & Nb).
      cbn [mstr find fst snd Nat.eqb] in A. rewrite (height_some _ _ Na) in A. cbn [bind] in A. rewrite (height_some _ _ Nb) in A. cbn [bind] in A. injection A as <-.
      apply St_ceilings; [exact P|exact (numeral_height _ _ Na)|exact (numeral_height _ _ Nb)].
  - cbn [cl_inc Cloud_of] in A. apply site_words in A; [|reflexivity]. destruct A as [[_ (r & d & S & ->)]|[X _]]; [|discriminate X]. apply St_told; [|reflexivity].
    exact (Clouds_chino part [w] r d P S).
  - cbn [cl_inc ceiling] in A. apply site_words in A; [|reflexivity]. destruct A as [[_ (r & e & S & ->)]|[X _]]; [|discriminate X]. apply St_told; [|reflexivity].
    exact (Clouds_ceiling part h d [w] r e P H S).
  - cbn [cl_inc ceilings] in A. apply site_words in A; [|reflexivity]. destruct A as [[_ (r & e & S & ->)]|[X _]]; [|discriminate X]. apply St_told; [|reflexivity].
    exact (Clouds_variable_ceiling part a b low high [w] r e P Ha Hb S).
  - cbn [cl_inc] in A. unfold Cloud_appendObscuration in A. destruct (regex_match rgx_obscuration w) as [m|] eqn:R; [|discriminate A].
    apply obscured_match in R. destruct R as (y & h & v & -> & -> & Ly & N). cbn [mstr find fst snd Nat.eqb] in A. rewrite (height_some _ _ N) in A. cbn [bind] in A.
    destruct (Cloud_amountFromString y) as [a|] eqn:Ay; [|discriminate A]. injection A as <-. apply St_told; [|reflexivity].
    exact (Clouds_obscuration part x t y a _ h _ P O (amount_letters _ _ Ay Ly) (numeral_height _ _ N)).
  - cbn [cl_inc variable_layer] in A. destruct (seqb w "V") eqn:E; [|discriminate A]. apply seqb_eq in E. subst w. injection A as <-. exact (St_amount_v part x a k h d P I L).
  - cbn [cl_inc variable_layer] in A. unfold Cloud_appendVariableCloudAmount in A. destruct (Cloud_amountFromString w) as [b|] eqn:Aw; [|discriminate A].
    cbv zeta in A. cbn [variable_layer cl_amnt cl_tp cl_h cl_maxHt cl_conv cl_rw cl_dir cl_cldTp] in A.
    apply amount_words in Aw.
    cbn [In amounts] in I. repeat (destruct I as [I|I]; [injection I as <- <- <-|]); try contradiction; destruct b; try discriminate A; cbn in A; injection A as <-;
      (destruct Aw as [[_ Aw]|Aw]; [discriminate Aw|]); cbn [In amount_or_not amounts app] in Aw;
      (assert (E : exists z, w = z) by eauto); intuition (try discriminate);
      match goal with H : (_, _) = (w, _) |- _ => injection H as <- end;
      (apply St_told; [|reflexivity]); (eapply Clouds_variable; [exact P|cbn; auto|exact L]).
Qed.
Lemma cloud_refused : forall part ws g w part' md g', State part ws g -> CloudGroup_append g w part' md = Ok (g', NOT_APPENDED) -> State part ws g'.
Proof.
  intros part ws g w part' md g' H A. pose proof H as H0. unfold CloudGroup_append in A. destruct H as [ws g H C|P|P|P|h d P H|a b low high P Ha Hb|x t P O|x a k h d P I L|x a k h d P I L].
  - rewrite C in A. injection A as <-. exact H0.
  - cbn [cl_inc Cloud_of] in A. destruct (seqb w "MISG"); discriminate A.
  - cbn [cl_inc Cloud_of] in A. unfold Cloud_appendCeiling in A. destruct (Distance_fromHeightString w) as [[h|]|]; [| |discriminate A]; cbn [bind] in A.
    + destruct (Distance_isReported h); discriminate A.
    + destruct (regex_match rgx_ceiling w) as [m|] eqn:R; [|discriminate A]. apply ceiling_match in R. destruct R as (a & b & u & v & -> & -> & Na & Nb).
      cbn [mstr find fst snd Nat.eqb] in A. rewrite (height_some _ _ Na) in A. cbn [bind] in A. rewrite (height_some _ _ Nb) in A. discriminate A.
  - apply site_words in A; [|reflexivity]. destruct A as [[X _]|[_ ->]]; [discriminate X|]. apply St_told; [exact (completed_told _ _ _ H0 eq_refl)|reflexivity].
  - apply site_words in A; [|reflexivity]. destruct A as [[X _]|[_ ->]]; [discriminate X|]. apply St_told; [exact (completed_told _ _ _ H0 eq_refl)|reflexivity].
  - apply site_words in A; [|reflexivity]. destruct A as [[X _]|[_ ->]]; [discriminate X|]. apply St_told; [exact (completed_told _ _ _ H0 eq_refl)|reflexivity].
  - cbn [cl_inc] in A. unfold Cloud_appendObscuration in A. destruct (regex_match rgx_obscuration w) as [m|]; [|discriminate A].
    destruct (Distance_fromHeightString (mstr m 2)) as [[h|]|]; try discriminate A. cbn [bind] in A. destruct (Cloud_amountFromString (mstr m 1)); discriminate A.
  - cbn [cl_inc variable_layer] in A. destruct (seqb w "V"); discriminate A.
  - cbn [cl_inc variable_layer] in A. unfold Cloud_appendVariableCloudAmount in A. destruct (Cloud_amountFromString w) as [b|]; [|discriminate A].
    cbv zeta in A. destruct (ClAmount_beq _ _) in A; discriminate A.
Qed.

(** ** Making the groups *)
Definition Made (part : ReportPart) (now : option MetafTime) (ws : list string) (g : CloudGroup) : Prop := Assembled part now ws (GCloud g).
Lemma made_more : forall part now ws w g g', Made part now ws g -> CloudGroup_append g w part (md_at now) = Ok (g', APPENDED) -> Made part now (ws ++ [w])%list g'.
Proof. intros part now ws w g g' H A. exact (assembled_more part now ws w (GCloud g) (GCloud g') H A). Qed.
Lemma made_first : forall part now w g, CloudGroup_parse w part (md_at now) = Ok (Some g) -> Made part now [w] g.
Proof. intros part now w g H. exact (assembled_first part now w (GCloud g) H). Qed.
Lemma conv_read : forall c v t, In (c, (v, t)) convective ->
  exists o, some_text o = c /\ like re_conv o /\ Cloud_convectiveTypeFromString c = Some v /\ t = Cloud_convectiveTypeToCloudTypeType v.
Proof.
  intros c v t H. cbn [In convective] in H. repeat (destruct H as [H|H]; [injection H as <- <- <-|]); try contradiction.
  - exists None. repeat split.
  - exists (Some "TCU"). repeat split. apply closed_lang. reflexivity.
  - exists (Some "CB"). repeat split. apply closed_lang. reflexivity.
  - exists (Some "///"). repeat split. apply closed_lang. reflexivity.
Qed.
Lemma layer_text_read : forall w h o a d v, Lang re_amount w -> Height h d -> like re_conv o -> Cloud_amountFromString w = Some a ->
  Cloud_convectiveTypeFromString (some_text o) = Some v -> ClAmount_beq a Am_OBSCURED && negb (ClConv_beq v Cv_NONE) = false ->
  Cloud_parseCloudLayerOrVertVis (w ++ h ++ some_text o) = Ok (Some (mkCloud (if ClAmount_beq a Am_OBSCURED then Cl_VERTICAL_VISIBILITY else Cl_CLOUD_LAYER)
    a d Distance_default v None None CloudType_default ClI_NONE)).
Proof.
  intros w h o a d v W H O A V N.
  assert (R : regex_match rgx_cloud (w ++ h ++ some_text o) = Some (some_cap 3 o ++ [(2, h); (1, w)])%nat%list)
    by (apply cloud_match; exists w, h, o; repeat split; try assumption; eapply height_lang; exact H).
  unfold Cloud_parseCloudLayerOrVertVis. cbv zeta.
  repeat match goal with |- context [seqb ?s ?x] => let E := fresh in destruct (seqb s x) eqn:E; [apply seqb_eq in E; rewrite E in R; discriminate R|clear E] end.
  rewrite R.
  assert (M1 : mstr (some_cap 3 o ++ [(2, h); (1, w)])%nat%list 1 = w) by (destruct o; reflexivity).
  assert (M2 : mstr (some_cap 3 o ++ [(2, h); (1, w)])%nat%list 2 = h) by (destruct o; reflexivity).
  assert (M3 : mstr (some_cap 3 o ++ [(2, h); (1, w)])%nat%list 3 = some_text o) by (destruct o; reflexivity).
  rewrite M1, M2, M3, A, (proj2 (height_text h d) H). cbn [bind]. rewrite V, N. reflexivity.
Qed.
Lemma body_read : forall part w md, part = RP_METAR \/ part = RP_TAF -> CloudGroup_parse w part md = Cloud_parseCloudLayerOrVertVis w.
Proof. intros part w md [-> | ->]; reflexivity. Qed.
Lemma amount_word_read : forall w a k h d, In (w, (a, k)) amounts -> layer_height h d -> Cloud_parseVariableCloudLayer (w ++ h) = Ok (Some (variable_layer a d ClI_RMK_AMOUNT)).
Proof.
  intros w a k h d I L. destruct (amount_of _ _ _ I) as (A & _ & W). unfold Cloud_parseVariableCloudLayer. destruct L as [L|[-> ->]].
  - destruct (height_numeral _ _ L) as (v & N & ->). rewrite (proj2 (amount_match (w ++ h) [(2, h); (1, w)]%nat)) by (exists w, (Some h); cbn [some_text some_cap app]; eauto 10).
    cbn [mstr find fst snd Nat.eqb]. rewrite A. destruct h as [|c h]; [destruct N as [N _]; discriminate N|]. cbn [sempty negb]. rewrite (height_some _ _ N). reflexivity.
  - rewrite (proj2 (amount_match (w ++ "") [(1, w)]%nat)) by (exists w, None; cbn [some_text some_cap app]; auto).
    cbn [mstr find fst snd Nat.eqb]. rewrite A. reflexivity.
Qed.
Lemma mk_amount : forall now w a k h d, In (w, (a, k)) amounts -> layer_height h d -> Made RP_RMK now [w ++ h] (variable_layer a d ClI_RMK_AMOUNT).
Proof.
  intros now w a k h d I L. apply made_first. rewrite <- (amount_word_read _ _ _ _ _ I L). clear L.
  cbn [In amounts] in I. repeat (destruct I as [I|I]; [injection I as <- <- <-; reflexivity|]). contradiction.
Qed.
Lemma mk_ceiling : forall now h d, Height_number h d -> Made RP_RMK now ["CIG"; h] (ceiling d ClI_CIG_NUM).
Proof.
  intros now h d H. destruct (height_numeral _ _ H) as (v & N & ->). apply (made_more RP_RMK now ["CIG"] h (Cloud_of Cl_CEILING Am_NOT_REPORTED ClI_CIG)); [apply made_first; reflexivity|].
  unfold CloudGroup_append. cbn [cl_inc Cloud_of]. unfold Cloud_appendCeiling. rewrite (height_some _ _ N). reflexivity.
Qed.
Lemma mk_ceilings : forall now a b low high, Height_number a low -> Height_number b high -> Made RP_RMK now ["CIG"; a ++ "V" ++ b] (ceilings low high ClI_CIG_NUM).
Proof.
  intros now a b low high A B. destruct (height_numeral _ _ A) as (u & Na & ->). destruct (height_numeral _ _ B) as (v & Nb & ->).
  apply (made_more RP_RMK now ["CIG"] _ (Cloud_of Cl_CEILING Am_NOT_REPORTED ClI_CIG)); [apply made_first; reflexivity|].
  unfold CloudGroup_append. cbn [cl_inc Cloud_of]. unfold Cloud_appendCeiling.
  assert (E : Distance_fromHeightString (a ++ "V" ++ b) = Ok None).
  { destruct (Distance_fromHeightString (a ++ "V" ++ b)) as [[d|]|] eqn:D; [|reflexivity|].
    - apply height_text in D. destruct D as [[D _]|(w & [D _] & _)].
      + apply (f_equal slen) in D. rewrite !slen_app in D. destruct Na as [Na _]. change String.length with slen in Na. rewrite Na in D. cbn in D. lia.
      + change String.length with slen in D. rewrite !slen_app in D. destruct Na as [Na _]. change String.length with slen in Na. cbn in D. lia.
    - exfalso. revert D. unfold Distance_fromHeightString. destruct (slen _ =? 3)%nat eqn:E; [|cbn; try discriminate].
      apply Nat.eqb_eq in E. rewrite !slen_app in E. destruct Na as [Na _]. change String.length with slen in Na. cbn in E. lia. }
  rewrite E. cbn [bind]. rewrite (proj2 (ceiling_match (a ++ "V" ++ b) [(2, b); (1, a)]%nat)) by eauto 10. cbn [mstr find fst snd Nat.eqb].
  rewrite (height_some _ _ Na). cbn [bind]. rewrite (height_some _ _ Nb). reflexivity.
Qed.
Lemma site_made : forall part now ws g site r d, Made part now ws g -> completed (cl_inc g) = true -> (cl_inc g <> ClI_NONE) -> cl_dir g = None -> cl_rw g = None -> Site site r d ->
  exists g', Made part now (ws ++ site)%list g' /\ completed (cl_inc g') = true /\ sky_of g' = sky_of (sited g r d).
Proof.
  intros part now ws g site r d M C N D R H. pose proof H as H0. destruct H.
  - exists g. rewrite List.app_nil_r. split; [exact M|]. split; [exact C|]. unfold sited, sky_of. cbn. rewrite D, R. reflexivity.
  - eexists. split; [eapply made_more; [exact M|]|]; [|split; [|reflexivity]; reflexivity].
    unfold CloudGroup_append. destruct (cl_inc g); try discriminate C; try (destruct N; reflexivity); exact (site_read _ _ _ g H0 D).
  - eexists. split; [eapply made_more; [exact M|]|]; [|split; [|reflexivity]; reflexivity].
    unfold CloudGroup_append. destruct (cl_inc g); try discriminate C; try (destruct N; reflexivity); exact (site_read _ _ _ g H0 D).
  - eexists. split; [eapply made_more; [exact M|]|]; [|split; [|reflexivity]; reflexivity].
    unfold CloudGroup_append. destruct (cl_inc g); try discriminate C; try (destruct N; reflexivity); exact (site_read _ _ _ g H0 D).
Qed.
Lemma clouds_made : forall part now ws v, Clouds part ws v -> exists g, Made part now ws g /\ completed (cl_inc g) = true /\ sky_of g = v.
Proof.
  intros part now ws v H.
  destruct H as [w a P I|w h c a okta height v ct P I H C|h d P H|P|site r d P S|h height site r d P H S|a b low high site r d P A B S|x t w a okta h height P O I H|w x a okta h height P I L].
  - exists (Cloud_of Cl_NO_CLOUDS a ClI_NONE). split; [|split; reflexivity]. apply made_first. rewrite (body_read _ _ _ P).
    cbn [In no_clouds] in I. repeat (destruct I as [I|I]; [injection I as <- <-; reflexivity|]). contradiction.
  - destruct (amount_read _ _ _ I) as (A & -> & W & N). destruct (conv_read _ _ _ C) as (o & <- & O & V & ->).
    eexists. split; [apply made_first; rewrite (body_read _ _ _ P); apply (layer_text_read w h o a height v W H O A V); rewrite N; reflexivity|].
    rewrite N. split; reflexivity.
  - exists (mkCloud Cl_VERTICAL_VISIBILITY Am_OBSCURED d Distance_default Cv_NONE None None CloudType_default ClI_NONE). split; [|split; reflexivity].
    apply made_first. rewrite (body_read _ _ _ P). replace ("VV" ++ h) with ("VV" ++ h ++ some_text None) by (cbn [some_text]; rewrite app_empty_r; reflexivity).
    apply (layer_text_read "VV" h None Am_OBSCURED d Cv_NONE); try reflexivity; [apply closed_lang; reflexivity|exact H].
  - subst part. exists (Cloud_of Cl_CLD_MISG Am_NOT_REPORTED ClI_NONE). split; [|split; reflexivity].
    apply (made_more RP_RMK now ["CLD"] "MISG" (Cloud_of Cl_CLD_MISG Am_NOT_REPORTED ClI_CLD)); [apply made_first; reflexivity|reflexivity].
  - subst part. apply (site_made RP_RMK now ["CHINO"] (Cloud_of Cl_CHINO Am_NOT_REPORTED ClI_CHINO) site r d); try reflexivity; [apply made_first; reflexivity|discriminate|exact S].
  - subst part. apply (site_made RP_RMK now ["CIG"; h] (ceiling height ClI_CIG_NUM) site r d); try reflexivity; [apply mk_ceiling; exact H|discriminate|exact S].
  - subst part. apply (site_made RP_RMK now ["CIG"; a ++ "V" ++ b] (ceilings low high ClI_CIG_NUM) site r d); try reflexivity; [apply mk_ceilings; assumption|discriminate|exact S].
  - subst part. destruct (height_numeral _ _ H) as (u & N & ->). destruct (amount_of _ _ _ I) as (A & -> & W).
    eexists. split; [apply (made_more RP_RMK now [x] (w ++ h) (mkCloud Cl_OBSCURATION Am_NOT_REPORTED Distance_default Distance_default Cv_NONE None None (mkCloudType t Distance_default 0) ClI_OBSCURATION))|].
    + apply made_first. cbn [In obscurations] in O. repeat (destruct O as [O|O]; [injection O as <- <-; reflexivity|]). contradiction.
    + unfold CloudGroup_append. cbn [cl_inc]. unfold Cloud_appendObscuration. rewrite (proj2 (obscured_match (w ++ h) [(2, h); (1, w)]%nat)) by eauto 10.
      cbn [mstr find fst snd Nat.eqb]. rewrite (height_some _ _ N). cbn [bind]. rewrite A. reflexivity.
    + split; reflexivity.
  - subst part. 
    assert (J : exists b c, In (w, (b, c)) amounts /\ forall d, Cloud_appendVariableCloudAmount (variable_layer b d ClI_RMK_AMOUNT_V) x = Ok (variable_layer a d ClI_NONE, APPENDED)
                /\ okta = Cloud_amountToMaxOkta a).
    { cbn [In variable_amounts] in I. repeat (destruct I as [I|I]; [injection I as <- <- <- <-; eexists _, _; split; [cbn; eauto 10|intros d; split; reflexivity]|]). contradiction. }
    destruct J as (b & c & J & E). exists (variable_layer a height ClI_NONE). split; [|split; [reflexivity|]].
    + apply (made_more RP_RMK now [w ++ h; "V"] x (variable_layer b height ClI_RMK_AMOUNT_V)); [|exact (proj1 (E height))].
      apply (made_more RP_RMK now [w ++ h] "V" (variable_layer b height ClI_RMK_AMOUNT)); [|reflexivity]. exact (mk_amount now w b c h height J L).
    + rewrite (proj2 (E height)). reflexivity.
Qed.
(** ** The theorems *)
Lemma assembled_cloud : forall part now ws g, Assembled part now ws (GCloud g) -> State part ws g.
Proof.
  intros part now ws g H.
  refine (assembled_kind part now (fun ws k => match k with GCloud x => State part ws x | _ => True end) _ _ ws (GCloud g) H).
  - intros w md [] _ P; try exact I. exact (cloud_first _ _ _ _ P).
  - intros ws' w md [] [] _ IH T A; try exact I; try contradiction. exact (cloud_next _ _ _ _ _ _ IH A).
Qed.
Lemma built_cloud : forall part ws g, Built part ws (GCloud g) -> State part ws g.
Proof.
  intros part ws g H.
  refine (Pf_WeatherWords.built_kind part (fun ws k => match k with GCloud x => State part ws x | _ => True end) _ _ _ _ ws (GCloud g) H).
  - exact (fun _ => I).
  - intros w md [] P; try exact I. exact (cloud_first _ _ _ _ P).
  - intros ws' w md [] [] _ IH A; try exact I; try contradiction. exact (cloud_next _ _ _ _ _ _ IH A).
  - intros ws' w part' md [] [] _ IH A; try exact I; try contradiction. exact (cloud_refused _ _ _ _ _ _ _ IH A).
Qed.
Lemma settled_completed : forall part g, SpecAssembled.settled part (GCloud g) -> completed (cl_inc g) = true.
Proof.
  intros part g T. destruct (cl_inc g) eqn:E; try reflexivity; exfalso; refine (T "" (md_at None) (GCloud g) _);
    apply appended_iff; cbn [appended_as]; unfold CloudGroup_append; rewrite E; reflexivity.
Qed.
Lemma completed_settled : forall part g, completed (cl_inc g) = true -> SpecAssembled.settled part (GCloud g).
Proof.
  intros part g C w md g' A. apply appended_inv in A. destruct g'; try contradiction. cbn [appended_as] in A. unfold CloudGroup_append, Cloud_appendRunwayOrCardinalDirection in A.
  destruct (cl_inc g); try discriminate C; try discriminate A;
    (destruct (Runway_fromString w true) as [[r|]|]; cbn [bind] in A; try discriminate A; cbv zeta in A; destruct (Direction_fromCardinalString w false false); discriminate A).
Qed.
Theorem cloud_words : forall part now words,
  (forall g, Assembled part now words (GCloud g) -> SpecAssembled.settled part (GCloud g) -> Clouds part words (sky_of g))
  /\ (forall v, Clouds part words v -> exists g, Assembled part now words (GCloud g) /\ SpecAssembled.settled part (GCloud g) /\ sky_of g = v).
Proof.
  intros part now words. split.
  - intros g A T. exact (completed_told _ _ _ (assembled_cloud _ _ _ _ A) (settled_completed _ _ T)).
  - intros v V. destruct (clouds_made part now words v V) as (g & M & C & E). exists g. split; [exact M|]. split; [exact (completed_settled _ _ C)|exact E].
Qed.
Theorem result_cloud : forall sgn report limit r, parse sgn report limit = Ok r ->
  forall g part raw, In (mkGroupInfo (GCloud g) part raw) (pr_groups r) -> raw <> "" -> Clouds part (words_of raw) (sky_of g).
Proof.
  intros sgn report limit r E g part raw Hi N.
  pose proof (built_cloud _ _ _ (Pf_Built.built_from_words _ _ _ _ E _ _ _ Hi N)) as B. apply (completed_told _ _ _ B).
  destruct (waiting (GCloud g)) eqn:W; [destruct (result_waits _ _ _ _ E _ _ _ Hi N W)|].
  cbn in W. destruct (cl_inc g); discriminate W || reflexivity.
Qed.
