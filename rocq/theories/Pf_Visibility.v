(** C39 and C51: visibility groups. *)
From Coq Require Import Lia ZifyBool ZifyN ZifyNat.
From Verif Require Import Prim Lib Regex Float Values Weather Groups1 Groups2 Groups3 Groups4 Parser SpecRegex SpecTokens SpecReads SpecText SpecForm
  SpecReach SpecBuilt SpecAssembled SpecAppend SpecDecimal SpecNumeral SpecMiles SpecDirection SpecNearby SpecTexts.
From Verif Require Import Pf_Ok Pf_OkValues Pf_OkGroups2 Pf_Caps Pf_Regex Pf_Total Pf_Steps Pf_Kinds Pf_View Pf_Decimal Pf_Numeral Pf_Form Pf_Shapes Pf_Decode Pf_Layout
  Pf_Values3 Pf_Texts Pf_Assembled Pf_Grown Pf_Refuse Pf_Settled Pf_Waits Pf_VisTexts Pf_RunwayRange.
From Verif Require Import SpecVisibility.
Local Open Scope string_scope.

Inductive State (part : ReportPart) : list string -> VisibilityGroup -> Prop :=
| St_done : forall ws v, Visibility part ws v -> State part ws (of_sight v ViI_NONE)
| St_integer : forall w a, part = RP_METAR \/ part = RP_TAF -> Whole_miles w a -> distModifier a = DM_NONE ->
    State part [w] (of_sight (seen Around a) ViI_INTEGER)
| St_vis : part = RP_RMK -> State part ["VIS"] (of_sight (seen Around no_distance) ViI_VIS)
| St_vis_integer : forall w a, part = RP_RMK -> Whole_miles w a -> State part ["VIS"; w] (of_sight (seen Around a) ViI_VIS_INTEGER)
| St_vis_amount : forall ws d, part = RP_RMK -> Amount ws d \/ (exists x, ws = [x] /\ Meters_number x d) ->
    State part ("VIS" :: ws) (of_sight (seen Around d) ViI_VIS_FRACTION_OR_METERS)
| St_var_integer : forall before a b low high, part = RP_RMK -> Low before a low -> Whole_miles b high ->
    State part ("VIS" :: before ++ [a ++ "V" ++ b]) (of_sight (varies Around low high) ViI_VIS_VAR_MAX_INT)
| St_var : forall ws low high, part = RP_RMK -> Range ws low high ->
    State part ("VIS" :: ws) (of_sight (varies Around low high) ViI_VIS_VAR)
| St_dir : forall w p, part = RP_RMK -> Place_text w p -> State part ["VIS"; w] (of_sight (seen p no_distance) ViI_VIS_DIR)
| St_dir_integer : forall w p x d, part = RP_RMK -> Place_text w p -> Whole_miles x d ->
    State part ["VIS"; w; x] (of_sight (seen p d) ViI_VIS_DIR_INTEGER)
| St_dir_var_integer : forall w p before a b low high, part = RP_RMK -> Place_text w p -> Low before a low -> Whole_miles b high ->
    State part (["VIS"; w] ++ before ++ [a ++ "V" ++ b]) (of_sight (varies p low high) ViI_VIS_DIR_VAR_MAX_INT)
| St_observer : forall w t, part = RP_RMK -> In (w, t) [("SFC", Vi_SURFACE); ("TWR", Vi_TOWER)] ->
    State part [w] (of_sight (told t Around no_distance) ViI_SFC_OR_TWR)
| St_observer_vis : forall w t, part = RP_RMK -> In (w, t) [("SFC", Vi_SURFACE); ("TWR", Vi_TOWER)] ->
    State part [w; "VIS"] (of_sight (told t Around no_distance) ViI_SFC_OR_TWR_VIS)
| St_observer_integer : forall w t x d, part = RP_RMK -> In (w, t) [("SFC", Vi_SURFACE); ("TWR", Vi_TOWER)] -> Whole_miles x d ->
    State part [w; "VIS"; x] (of_sight (told t Around d) ViI_SFC_OR_TWR_VIS_INTEGER)
| St_range : part = RP_RMK -> State part ["RVR"] (of_sight (told Vi_RVR_MISG Around no_distance) ViI_RVR)
| St_none : part = RP_RMK -> State part ["VISNO"] (of_sight (told Vi_VISNO Around no_distance) ViI_VISNO).

(** Groups told completely, though more words may follow *)
Definition completed (i : ViInc) : bool :=
  match i with
  | ViI_NONE | ViI_VIS_VAR_MAX_INT | ViI_VIS_VAR | ViI_VIS_DIR_INTEGER | ViI_VIS_DIR_VAR_MAX_INT | ViI_SFC_OR_TWR_VIS_INTEGER | ViI_VISNO => true
  | _ => false
  end.
Lemma place_not_along : forall w p, Place_text w p -> (exists d, p = Towards d) \/ exists a b, p = Sector a b.
Proof. intros w p [x o I| |v m x o o' I B J]; eauto. Qed.
Lemma whole_one : forall w d, Whole_miles w d -> High w [] d.
Proof. intros w d W. constructor. apply whole_miles. exact W. Qed.
Lemma range_whole : forall before a b low high, Low before a low -> Whole_miles b high -> Range (before ++ [a ++ "V" ++ b]) low high.
Proof. intros before a b low high L W. exact (Range_miles before a b [] low high L (whole_one _ _ W)). Qed.
Lemma completed_told : forall part ws g, State part ws g -> completed (vi_inc g) = true ->
  exists v, Visibility part ws v /\ g = of_sight v (vi_inc g).
Proof.
  intros part ws g H C. destruct H; cbn [of_sight vi_inc] in *; try discriminate C.
  - eauto.
  - eexists. split; [apply Visibility_varies; [assumption|apply range_whole; eassumption]|reflexivity].
  - eexists. split; [apply Visibility_varies; [assumption|eassumption]|reflexivity].
  - eexists. split; [eapply (Visibility_place part w p [x]); [assumption|eassumption|apply Amount_whole; eassumption]|reflexivity].
  - eexists. split; [eapply Visibility_place_varies; [assumption|eassumption|apply range_whole; eassumption]|reflexivity].
  - eexists. split; [eapply (Visibility_observer part w t [x]); [assumption|eassumption|apply Amount_whole; eassumption]|reflexivity].
  - eexists. split; [apply Visibility_none; assumption|reflexivity].
Qed.
Lemma bind_some : forall A B (e : res (option A)) (k : A -> res (option B)) b, (let? x := e in k x) = Ok (Some b) -> exists a, e = Ok (Some a) /\ k a = Ok (Some b).
Proof. intros A B [[a|]|] k b H; try discriminate H. eauto. Qed.
Lemma incomplete_words : forall w g, Vis_fromIncompleteInteger w = Ok (Some g) <-> exists a, Whole_miles w a /\ distModifier a = DM_NONE /\ g = of_sight (seen Around a) ViI_INTEGER.
Proof.
  intros w g. unfold Vis_fromIncompleteInteger. split.
  - intros H. apply bind_some in H. destruct H as (k & K & H). apply integer_append in K; [|reflexivity]. destruct K as (a & W & ->).
    cbn [VisibilityGroup_visibility Vis_setInc Vis_setVis vi_vis vi_type Vis_default Vis_of Vis_isVariable] in H.
    destruct (DistModifier_beq (distModifier a) DM_NONE) eqn:E; [|discriminate H]. injection H as <-. exists a. split; [exact W|]. split; [destruct (distModifier a); discriminate E || reflexivity|reflexivity].
  - intros (a & W & E & ->). rewrite (proj2 (integer_append Vis_default w ViI_NONE _ eq_refl)) by eauto. cbn [bind].
    cbn [VisibilityGroup_visibility Vis_setInc Vis_setVis vi_vis vi_type Vis_default Vis_of Vis_isVariable]. rewrite E. reflexivity.
Qed.
Lemma or_else_some : forall A (a b : res (option A)) x, or_else a b = Ok (Some x) -> a = Ok (Some x) \/ a = Ok None /\ b = Ok (Some x).
Proof. intros A [[y|]|] b x H; cbn in H; auto; discriminate H. Qed.
Lemma vis_first : forall w part md g, VisibilityGroup_parse w part md = Ok (Some g) -> State part [w] g.
Proof.
  intros w part md g H. unfold VisibilityGroup_parse in H. cbv zeta in H.
  destruct (is_part part RP_RMK && seqb w "VIS") eqn:E1.
  { apply andb_prop in E1. destruct E1 as [P E]. apply seqb_eq in E. subst. destruct part; try discriminate P. injection H as <-. exact (St_vis RP_RMK eq_refl). }
  destruct (is_part part RP_RMK && seqb w "SFC") eqn:E2.
  { apply andb_prop in E2. destruct E2 as [P E]. apply seqb_eq in E. subst. destruct part; try discriminate P. injection H as <-.
    refine (St_observer RP_RMK "SFC" Vi_SURFACE eq_refl _). cbn; auto. }
  destruct (is_part part RP_RMK && seqb w "TWR") eqn:E3.
  { apply andb_prop in E3. destruct E3 as [P E]. apply seqb_eq in E. subst. destruct part; try discriminate P. injection H as <-.
    refine (St_observer RP_RMK "TWR" Vi_TOWER eq_refl _). cbn; auto. }
  destruct (is_part part RP_RMK && seqb w "RVRNO") eqn:E4.
  { apply andb_prop in E4. destruct E4 as [P E]. apply seqb_eq in E. subst. destruct part; try discriminate P. injection H as <-. exact (St_done RP_RMK _ _ (Visibility_no_range _ eq_refl)). }
  destruct (is_part part RP_RMK && seqb w "VISNO") eqn:E5.
  { apply andb_prop in E5. destruct E5 as [P E]. apply seqb_eq in E. subst. destruct part; try discriminate P. injection H as <-. exact (St_none RP_RMK eq_refl). }
  destruct (is_part part RP_RMK && seqb w "RVR") eqn:E6.
  { apply andb_prop in E6. destruct E6 as [P E]. apply seqb_eq in E. subst. destruct part; try discriminate P. injection H as <-. exact (St_range RP_RMK eq_refl). }
  clear E1 E2 E3 E4 E5 E6. apply or_else_some in H. destruct H as [H|[_ H]].
  - assert (P : part = RP_METAR \/ part = RP_TAF) by (destruct part; try discriminate H; auto).
    assert (B : is_part part RP_METAR || is_part part RP_TAF = true) by (destruct P as [-> | ->]; reflexivity). rewrite B in H.
    apply or_else_some in H. destruct H as [H|[_ H]].
    + apply incomplete_words in H. destruct H as (a & W & E & ->). eapply St_integer; eassumption.
    + apply or_else_some in H. destruct H as [H|[_ H]].
      * apply meters_words in H. destruct H as (v & V & ->). apply St_done.
        destruct V; [eapply Visibility_meters|eapply Visibility_towards|eapply Visibility_no_variation|eapply Visibility_letters]; eassumption.
      * apply bind_some in H. destruct H as (d & D & H). injection H as <-. apply miles_words in D. destruct D as [D|(_ & -> & ->)].
        -- exact (St_done part _ _ (Visibility_miles _ _ _ P D)).
        -- exact (St_done part _ _ (Visibility_no_miles _ P)).
  - destruct (is_part part RP_METAR) eqn:P; [|discriminate H]. apply rvr_words in H. destruct H as (v & V & ->). apply St_done, Visibility_runway; [destruct part; discriminate P || reflexivity|exact V].
Qed.
Lemma try_some : forall G (e : res (option G)) k g r, try_append e k = Ok (g, r) -> e = Ok (Some g) /\ r = APPENDED \/ e = Ok None /\ k = Ok (g, r).
Proof. intros G [[x|]|] k g r H; cbn in H; try discriminate H; [injection H as -> ->|]; auto. Qed.
Lemma low_none : forall g min v, vi_vis g = no_distance -> low_end g min v -> v = min.
Proof. intros g min v E [[_ ->]|[R _]]; [reflexivity|]. rewrite E in R. discriminate R. Qed.
Lemma low_some : forall g min v w, Whole_miles w (vi_vis g) -> low_end g min v -> Added (vi_vis g) min v.
Proof. intros g min v w W [[R _]|[_ A]]; [|exact A]. rewrite (miles_reported _ _ _ (whole_miles _ _ W)) in R. discriminate R. Qed.
Lemma high_broken : forall b max, Miles "" b max -> has "/" b = true -> forall before a low, Low before a low -> Range (before ++ [a ++ "V" ++ b]) low max.
Proof. intros b max B _ before a low L. exact (Range_miles before a b [] low max L (High_one _ _ B)). Qed.
Lemma high_whole : forall b max, Miles "" b max -> has "/" b = false -> Whole_miles b max.
Proof.
  intros b max B S. destruct (miles_shape _ _ B) as [[_ W]|[_ [_ (x & y & ->)]]]; [exact W|]. rewrite has_app in S. cbn in S. rewrite Bool.orb_true_r in S. discriminate S.
Qed.
Lemma fin : forall part ws v ws' g, Visibility part ws v -> ws = ws' -> of_sight v ViI_NONE = g -> State part ws' g.
Proof. intros part ws v ws' g V <- <-. constructor. exact V. Qed.
Lemma no_dist_unreported : Distance_isReported no_distance = false.
Proof. reflexivity. Qed.
Lemma whole_reported : forall w d, Whole_miles w d -> exists s, Miles "" s d.
Proof. intros w d W. exists w. apply whole_miles. exact W. Qed.
Ltac give_up := match goal with H : Ok (_, _) = Ok (_, APPENDED) |- _ => discriminate H end.
Ltac step H E := apply try_some in H; destruct H as [[H _]|[E H]].
Lemma vis_next : forall part ws g w md g', State part ws g -> VisibilityGroup_append g w part md = Ok (g', APPENDED) -> State part (ws ++ [w]) g'.
Proof.
  intros part ws g w md g' St H. unfold VisibilityGroup_append in H. cbv zeta in H. pose proof St as St0.
  destruct St as [ws v V|w0 a P W M|P|w0 a P W|ws d P A|before a b low high P L W|ws low high P R|w0 p P T|w0 p x d P T W|w0 p before a b low high P T L W|w0 t P I|w0 t P I|w0 t x d P I W|P|P];
    cbn [of_sight vi_inc] in H.
  - discriminate H.
  - step H E; [|give_up]. apply (mile_fraction_add _ _ _ _ w0) in H; [|apply whole_miles; exact W|reflexivity]. destruct H as (b & d & B & Ad & ->).
    eapply fin; [eapply Visibility_two_words; [exact P|exact W|exact M|exact B|exact Ad]|reflexivity|reflexivity].
  - destruct (seqb w "MISG") eqn:E0; [apply seqb_eq in E0; subst w; injection H as <-; eapply fin; [apply Visibility_missing; exact P|reflexivity|reflexivity]|].
    step H E; [|step H E1; [|step H E2; [|step H E3; [|step H E4; [|step H E5; [|give_up]]]]]].
    + apply place_append in H. destruct H as (p & T & ->). pose proof (St_dir part w p P T) as G.
      destruct (place_not_along _ _ T) as [(d & ->)|(x & y & ->)]; exact G.
    + apply integer_append in H; [|reflexivity]. destruct H as (d & W & ->). exact (St_vis_integer part w d P W).
    + apply fraction_append in H; [|reflexivity]. destruct H as (d & W & ->). exact (St_vis_amount part [w] d P (or_introl (Amount_broken _ _ W))).
    + apply variable_append in H; [|left; reflexivity]. destruct H as (a & b & min & max & v & -> & A & B & L & ->).
      apply low_none in L; [subst v|reflexivity]. destruct (has "/" b) eqn:S.
      * exact (St_var part [a ++ "V" ++ b] min max P (high_broken _ _ B S [] a min (Low_one _ _ A))).
      * exact (St_var_integer part [] a b min max P (Low_one _ _ A) (high_whole _ _ B S)).
    + apply meters_append in H. destruct H as (d & M & ->). exact (St_vis_amount part [w] d P (or_intror (ex_intro _ w (conj eq_refl M)))).
    + apply variable_meters_append in H. destruct H as (a & b & min & max & -> & A & B & ->).
      exact (St_var part [a ++ "V" ++ b] min max P (Range_meters _ _ _ _ A B)).
  - step H E; [|step H E1; [|step H E2; [|give_up]]].
    + apply variable_append in H; [|right; eapply whole_reported; exact W]. destruct H as (x & b & min & max & v & -> & A & B & L & ->).
      apply (low_some _ _ _ w0) in L; [|exact W]. pose proof (Low_added _ _ _ _ _ W A L) as Lo. destruct (has "/" b) eqn:S.
      * exact (St_var part [w0; x ++ "V" ++ b] v max P (high_broken _ _ B S [w0] x v Lo)).
      * exact (St_var_integer part [w0] x b v max P Lo (high_whole _ _ B S)).
    + apply (fraction_add _ _ _ _ w0) in H; [|apply whole_miles; exact W]. destruct H as (b & d & B & Ad & ->).
      exact (St_vis_amount part [w0; w] d P (or_introl (Amount_added _ _ _ _ _ W B Ad))).
    + apply runway_append in H. destruct H as (r & R & ->).
      exact (St_done part _ _ (Visibility_along part [w0] a w r P (Amount_whole _ _ W) R)).
  - step H E; [|give_up]. apply runway_append in H. destruct H as (r & R & ->). destruct A as [A|(x & -> & A)].
    + exact (St_done part _ _ (Visibility_along part ws d w r P A R)).
    + exact (St_done part _ _ (Visibility_along_meters part x d w r P A R)).
  - step H E; [|step H E1; [|give_up]].
    + apply (max_fraction_append _ _ _ _ b) in H; [|exact W]. destruct H as (x & d & F & Ad & ->).
      pose proof (St_var part _ low d P (Range_miles before a b [w] low d L (High_added _ _ _ _ _ W F Ad))) as G.
      cbn [app]. rewrite <- app_assoc. exact G.
    + apply runway_append in H. destruct H as (r & R & ->).
      exact (St_done part _ _ (Visibility_along_varies part _ low high w r P (range_whole _ _ _ _ _ L W) R)).
  - step H E; [|give_up]. apply runway_append in H. destruct H as (r & Rw & ->).
    exact (St_done part _ _ (Visibility_along_varies part ws low high w r P R Rw)).
  - assert (V : vi_vis (of_sight (seen p no_distance) ViI_VIS_DIR) = no_distance) by (destruct p; reflexivity).
    step H E; [|step H E1; [|step H E2; [|step H E3; [|give_up]]]].
    + apply integer_append in H; [|rewrite V; reflexivity]. destruct H as (d & W & ->). pose proof (St_dir_integer part w0 p w d P T W) as G.
      destruct (place_not_along _ _ T) as [(x & ->)|(x & y & ->)]; exact G.
    + apply variable_append in H; [|left; rewrite V; reflexivity]. destruct H as (a & b & min & max & v & -> & A & B & L & ->).
      apply low_none in L; [subst v|exact V]. destruct (has "/" b) eqn:S.
      * pose proof (St_done part _ _ (Visibility_place_varies part w0 p _ min max P T (high_broken _ _ B S [] a min (Low_one _ _ A)))) as G.
        destruct (place_not_along _ _ T) as [(x & ->)|(x & y & ->)]; exact G.
      * pose proof (St_dir_var_integer part w0 p [] a b min max P T (Low_one _ _ A) (high_whole _ _ B S)) as G.
        destruct (place_not_along _ _ T) as [(x & ->)|(x & y & ->)]; exact G.
    + apply fraction_append in H; [|rewrite V; reflexivity]. destruct H as (d & W & ->).
      pose proof (St_done part _ _ (Visibility_place part w0 p [w] d P T (Amount_broken _ _ W))) as G.
      destruct (place_not_along _ _ T) as [(x & ->)|(x & y & ->)]; exact G.
    + apply variable_meters_append in H. destruct H as (a & b & min & max & -> & A & B & ->).
      pose proof (St_done part _ _ (Visibility_place_varies part w0 p _ min max P T (Range_meters _ _ _ _ A B))) as G.
      destruct (place_not_along _ _ T) as [(x & ->)|(x & y & ->)]; exact G.
  - assert (V : vi_vis (of_sight (seen p d) ViI_VIS_DIR_INTEGER) = d) by (destruct p; reflexivity).
    step H E; [|step H E1; [|give_up]].
    + apply (fraction_add _ _ _ _ x) in H; [|rewrite V; apply whole_miles; exact W]. destruct H as (b & e & B & Ad & ->). rewrite V in Ad.
      pose proof (St_done part _ _ (Visibility_place part w0 p [x; w] e P T (Amount_added _ _ _ _ _ W B Ad))) as G.
      destruct (place_not_along _ _ T) as [(y & ->)|(y & z & ->)]; exact G.
    + apply variable_append in H; [|right; rewrite V; eapply whole_reported; exact W]. destruct H as (a & b & min & max & v & -> & A & B & L & ->).
      apply (low_some _ _ _ x) in L; [|rewrite V; exact W]. rewrite V in L. pose proof (Low_added _ _ _ _ _ W A L) as Lo. destruct (has "/" b) eqn:S.
      * pose proof (St_done part _ _ (Visibility_place_varies part w0 p _ v max P T (high_broken _ _ B S [x] a v Lo))) as G.
        destruct (place_not_along _ _ T) as [(y & ->)|(y & z & ->)]; exact G.
      * pose proof (St_dir_var_integer part w0 p [x] a b v max P T Lo (high_whole _ _ B S)) as G.
        destruct (place_not_along _ _ T) as [(y & ->)|(y & z & ->)]; exact G.
  - step H E; [|give_up]. apply (max_fraction_append _ _ _ _ b) in H; [|exact W]. destruct H as (x & d & F & Ad & ->).
    pose proof (St_done part _ _ (Visibility_place_varies part w0 p _ low d P T (Range_miles before a b [w] low d L (High_added _ _ _ _ _ W F Ad)))) as G.
    cbn [app] in *. rewrite <- app_assoc.
    destruct (place_not_along _ _ T) as [(y & ->)|(y & z & ->)]; exact G.
  - destruct (seqb w "VIS") eqn:E; [|give_up]. apply seqb_eq in E. subst w. injection H as <-. exact (St_observer_vis part w0 t P I).
  - assert (V : vi_vis (of_sight (told t Around no_distance) ViI_SFC_OR_TWR_VIS) = no_distance) by (destruct t; reflexivity).
    step H E; [|step H E1; [|step H E2; [|give_up]]].
    + apply integer_append in H; [|rewrite V; reflexivity]. destruct H as (d & W & ->). pose proof (St_observer_integer part w0 t w d P I W) as G.
      destruct I as [I|[I|[]]]; injection I as <- <-; exact G.
    + apply fraction_append in H; [|rewrite V; reflexivity]. destruct H as (d & W & ->).
      pose proof (St_done part _ _ (Visibility_observer part w0 t [w] d P I (Amount_broken _ _ W))) as G.
      destruct I as [I|[I|[]]]; injection I as <- <-; exact G.
    + apply meters_append in H. destruct H as (d & M & ->).
      pose proof (St_done part _ _ (Visibility_observer_meters part w0 t w d P I M)) as G.
      destruct I as [I|[I|[]]]; injection I as <- <-; exact G.
  - assert (V : vi_vis (of_sight (told t Around d) ViI_SFC_OR_TWR_VIS_INTEGER) = d).
    { destruct I as [I|[I|[]]]; injection I as <- <-; reflexivity. }
    step H E.
    + apply (fraction_add _ _ _ _ x) in H; [|rewrite V; apply whole_miles; exact W]. destruct H as (b & e & B & Ad & ->). rewrite V in Ad.
      pose proof (St_done part _ _ (Visibility_observer part w0 t [x; w] e P I (Amount_added _ _ _ _ _ W B Ad))) as G.
      destruct I as [I|[I|[]]]; injection I as <- <-; exact G.
    + destruct (Vis_appendVariable _ _ _ _) as [[k|]|]; discriminate H.
  - destruct (seqb w "MISG") eqn:E; [|give_up]. apply seqb_eq in E. subst w. injection H as <-. exact (St_done part _ _ (Visibility_range_missing part P)).
  - step H E; [|step H E1; [|give_up]].
    + apply runway_append in H. destruct H as (r & R & ->). exact (St_done part _ _ (Visibility_none_along part w r P R)).
    + apply place_append in H. destruct H as (p & T & ->). pose proof (St_done part _ _ (Visibility_none_place part w p P T)) as G.
      destruct (place_not_along _ _ T) as [(y & ->)|(y & z & ->)]; exact G.
Qed.
Lemma refused_completed : forall g w part md g', VisibilityGroup_append g w part md = Ok (g', NOT_APPENDED) -> completed (vi_inc g) = true /\ g' = Vis_setInc g ViI_NONE.
Proof.
  intros g w part md g' H. unfold VisibilityGroup_append in H. cbv zeta in H. destruct (vi_inc g) eqn:I; cbn [completed];
    repeat (match type of H with
            | try_append _ _ = _ => apply try_some in H; destruct H as [[_ H]|[_ H]]; [discriminate H|]
            | (if ?b then _ else _) = _ => destruct b; [discriminate H|]
            | bind (Vis_appendVariable ?a ?b ?c ?d) _ = _ => destruct (Vis_appendVariable a b c d) as [[?|]|]; cbn [bind] in H; try discriminate H
            end); try discriminate H; injection H as <-; split; try reflexivity.
  destruct g; cbn in *. subst. reflexivity.
Qed.
Lemma vis_refused : forall part ws g w md g', State part ws g -> VisibilityGroup_append g w part md = Ok (g', NOT_APPENDED) -> State part ws g'.
Proof.
  intros part ws g w md g' St H. apply refused_completed in H. destruct H as [C ->]. destruct (completed_told _ _ _ St C) as (v & V & ->).
  exact (St_done part ws v V).
Qed.

(** ** Every such sequence of words is accepted. *)
Inductive kind := K_whole | K_broken | K_range | K_meters | K_meters_range | K_runway | K_miles.
Definition re_sm : re := Eval vm_compute in rx "[MP]?\d\d?(?:/\d\d?)?SM".
Definition re_kind (k : kind) : re :=
  match k with
  | K_whole => re_whole | K_broken => re_broken | K_range => re_var | K_meters => re_meters | K_meters_range => rgx_varmeters
  | K_runway => re_runway | K_miles => re_sm
  end.
Definition kind_eqb (a b : kind) : bool :=
  match a, b with
  | K_whole, K_whole | K_broken, K_broken | K_range, K_range | K_meters, K_meters | K_meters_range, K_meters_range | K_runway, K_runway | K_miles, K_miles => true
  | _, _ => false
  end.
Lemma kinds_apart : forall a b w, kind_eqb a b = false -> Lang (re_kind a) w -> Lang (re_kind b) w -> False.
Proof. intros a b w E. apply exclusive_lang. destruct a, b; discriminate E || (vm_compute; reflexivity). Qed.
Lemma vmeters_lang : forall a b low high, Meters_number a low -> Meters_number b high -> Lang rgx_varmeters (a ++ "V" ++ b).
Proof.
  intros a b low high A B. apply meters_lang in A. apply meters_lang in B. unfold rgx_varmeters. apply L_seq; [apply L_grp; exact A|].
  apply L_seq; [apply closed_lang; reflexivity|apply L_grp; exact B].
Qed.
Lemma sm_lang : forall w d, Miles "SM" w d -> Lang re_sm w.
Proof.
  intros w d (p & m & body & a & n & q & k & -> & P & T & _ & K).
  assert (M : Miles "" (p ++ body) (mkDist m (Some k) STATUTE_MILES)) by (exists p, m, body, a, n, q, k; rewrite empty_app; auto).
  apply miles_lang in M. rewrite <- sapp_assoc. remember (p ++ body) as s eqn:E. clear - M. unfold re_miles in M.
  inversion M as [| |x y s1 s2 L1 L2| | | | | | |]; subst. inversion L2 as [| |x y s3 s4 L3 L4| | | | | | |]; subst. inversion L4 as [| |x y s5 s6 L5 L6| | | | | | |]; subst.
  rewrite !sapp_assoc. unfold re_sm. apply L_seq; [exact L1|]. apply L_seq; [exact L3|]. apply L_seq; [exact L5|]. apply L_seq; [exact L6|]. apply closed_lang. reflexivity.
Qed.
Lemma fraction_broken_lang : forall w d, Fraction w d -> Lang re_broken w.
Proof.
  intros w d (s1 & s2 & n & q & k & -> & A & B & _). apply (sign_broken "" DM_NONE s1 s2); [left; reflexivity|eapply short_lang; exact A|eapply short_lang; exact B].
Qed.

(** What a word of one kind is not *)
Definition empty_or_miles (g : VisibilityGroup) : Prop := Distance_isReported (vi_vis g) = false \/ exists s, Miles "" s (vi_vis g).
Lemma no_integer : forall k g w n, Lang (re_kind k) w -> kind_eqb k K_whole = false -> Distance_isReported (vi_vis g) = false -> Vis_appendInteger g w n = Ok None.
Proof.
  intros k g w n L K R. apply none_of; [apply ok_Vis_appendInteger|]. intros x H. apply integer_append in H; [|exact R]. destruct H as (d & W & _).
  exact (kinds_apart k K_whole w K L (whole_lang _ _ W)).
Qed.
Lemma no_fraction : forall k g w n, Lang (re_kind k) w -> kind_eqb k K_broken = false -> empty_or_miles g -> Vis_appendFraction g w n = Ok None.
Proof.
  intros k g w n L K [R|(s & M)]; (apply none_of; [apply ok_Vis_appendFraction|]; intros x H).
  - apply fraction_append in H; [|exact R]. destruct H as (d & W & _). exact (kinds_apart k K_broken w K L (broken_lang _ _ W)).
  - apply (fraction_add _ _ _ _ s) in H; [|exact M]. destruct H as (b & d & W & _). exact (kinds_apart k K_broken w K L (broken_lang _ _ W)).
Qed.
Lemma no_variable : forall k g w n m, Lang (re_kind k) w -> kind_eqb k K_range = false -> empty_or_miles g -> Vis_appendVariable g w n m = Ok None.
Proof.
  intros k g w n m L K R. apply none_of; [apply ok_Vis_appendVariable|]. intros x H. apply variable_append in H; [|exact R].
  destruct H as (a & b & min & max & v & -> & A & B & _). exact (kinds_apart k K_range _ K L (var_lang _ _ _ _ A B)).
Qed.
Lemma no_meters : forall k g w n, Lang (re_kind k) w -> kind_eqb k K_meters = false -> Vis_appendMeters g w n = Ok None.
Proof.
  intros k g w n L K. apply none_of; [apply ok_Vis_appendMeters|]. intros x H. apply meters_append in H. destruct H as (d & W & _).
  exact (kinds_apart k K_meters w K L (meters_lang _ _ W)).
Qed.
Lemma no_runway : forall k g w n, Lang (re_kind k) w -> kind_eqb k K_runway = false -> Vis_appendRunway g w n = Ok None.
Proof.
  intros k g w n L K. apply none_of; [apply ok_Vis_appendRunway|]. intros x H. apply runway_append in H. destruct H as (d & W & _).
  exact (kinds_apart k K_runway w K L (runway_lang _ _ W)).
Qed.
Lemma no_maximum : forall k g w n b, Lang (re_kind k) w -> kind_eqb k K_broken = false -> Whole_miles b (vi_visMax g) -> Vis_appendVariableMaxFraction g w n = Ok None.
Proof.
  intros k g w n b L K R. apply none_of; [apply ok_Vis_appendVariableMaxFraction|]. intros x H. apply (max_fraction_append _ _ _ _ b) in H; [|exact R].
  destruct H as (y & d & F & _). exact (kinds_apart k K_broken _ K L (fraction_broken_lang _ _ F)).
Qed.
Lemma no_place : forall k w p, Lang (re_kind k) w -> Place_text w p -> False.
Proof.
  intros k w p L T. apply place_head in T. destruct T as (c & t & -> & C). set (h := [("N", "N"); ("S", "S"); ("W", "W"); ("E", "E")]%char) in C.
  assert (X : match shapes (re_kind k) with Some l => forallb (fun f => match f with [] => true | cs :: _ => no_common cs h end) l | None => false end = true)
    by (destruct k; vm_compute; reflexivity).
  destruct (shapes (re_kind k)) as [l|] eqn:E; [|discriminate X]. apply (shapes_lang _ _ _ E) in L. destruct L as (f & If & Ff).
  rewrite forallb_forall in X. specialize (X _ If). destruct f as [|cs f]; [discriminate Ff|]. unfold fits_shape in Ff. cbn in Ff. apply andb_prop in Ff.
  destruct Ff as [F _]. exact (no_common_in _ _ _ X F C).
Qed.
Lemma no_direction : forall k g w n, Lang (re_kind k) w -> Vis_appendDirection g w n = Ok None.
Proof.
  intros k g w n L. apply none_of; [apply ok_Vis_appendDirection|]. intros x H. apply place_append in H. destruct H as (p & T & _). exact (no_place _ _ _ L T).
Qed.
Lemma not_misg : forall k w, Lang (re_kind k) w -> seqb w "MISG" = false.
Proof. intros k w L. apply (not_word (re_kind k)); [destruct k; reflexivity|exact L]. Qed.
Lemma place_misg : forall w p, Place_text w p -> seqb w "MISG" = false.
Proof.
  intros w p T. destruct (seqb w "MISG") eqn:E; [exfalso|reflexivity]. apply seqb_eq in E. subst. apply place_head in T. destruct T as (c & t & E & C).
  injection E as <- _. discriminate C.
Qed.
Lemma no_place_runway : forall g w n p, Place_text w p -> Vis_appendRunway g w n = Ok None.
Proof.
  intros g w n p T. apply none_of; [apply ok_Vis_appendRunway|]. intros x H. apply runway_append in H. destruct H as (d & W & _).
  exact (no_place K_runway _ _ (runway_lang _ _ W) T).
Qed.
Lemma do_integer : forall w d g n, Whole_miles w d -> Distance_isReported (vi_vis g) = false -> Vis_appendInteger g w n = Ok (Some (Vis_setInc (Vis_setVis g d) n)).
Proof. intros w d g n W R. apply integer_append; [exact R|]. eauto. Qed.
Lemma do_fraction : forall w d g n, Broken_miles w d -> Distance_isReported (vi_vis g) = false -> Vis_appendFraction g w n = Ok (Some (Vis_setInc (Vis_setVis g d) n)).
Proof. intros w d g n W R. apply fraction_append; [exact R|]. eauto. Qed.
Lemma do_fraction_add : forall s w a b d g n, Whole_miles s a -> Broken_miles w b -> Added a b d -> vi_vis g = a -> Vis_appendFraction g w n = Ok (Some (Vis_setInc (Vis_setVis g d) n)).
Proof. intros s w a b d g n W B A <-. apply (fraction_add _ _ _ _ s); [apply whole_miles; exact W|]. eauto. Qed.
Lemma do_meters : forall w d g n, Meters_number w d -> Vis_appendMeters g w n = Ok (Some (Vis_setInc (Vis_setVis g d) n)).
Proof. intros w d g n W. apply meters_append. eauto. Qed.
Lemma do_meters_range : forall a b low high g n, Meters_number a low -> Meters_number b high -> Vis_appendVariableMeters g (a ++ "V" ++ b) n
  = Ok (Some (Vis_setInc (Vis_setType (Vis_setVisMax (Vis_setVis g low) high) (Vis_makeVariable (vi_type g))) n)).
Proof. intros a b low high g n A B. apply variable_meters_append. eauto 10. Qed.
Lemma do_variable : forall a b low high g n m, Miles "" a low -> Miles "" b high -> Distance_isReported (vi_vis g) = false -> Vis_appendVariable g (a ++ "V" ++ b) n m
  = Ok (Some (Vis_setInc (Vis_setType (Vis_setVisMax (Vis_setVis g low) high) (Vis_makeVariable (vi_type g))) (if has "/" b then m else n))).
Proof. intros a b low high g n m A B R. apply variable_append; [left; exact R|]. exists a, b, low, high, low. repeat split; try assumption. left. auto. Qed.
Lemma do_variable_add : forall s x a b min low high g n m, Whole_miles s x -> Miles "" a min -> Added x min low -> Miles "" b high -> vi_vis g = x -> Vis_appendVariable g (a ++ "V" ++ b) n m
  = Ok (Some (Vis_setInc (Vis_setType (Vis_setVisMax (Vis_setVis g low) high) (Vis_makeVariable (vi_type g))) (if has "/" b then m else n))).
Proof.
  intros s x a b min low high g n m W A Ad B <-. apply whole_miles in W. apply variable_append; [right; exists s; exact W|]. exists a, b, min, high, low. repeat split; try assumption.
  right. split; [exact (miles_reported _ _ _ W)|exact Ad].
Qed.
Lemma do_maximum : forall s a w x d g n, Whole_miles s a -> Fraction w x -> Added a x d -> vi_visMax g = a -> Vis_appendVariableMaxFraction g w n = Ok (Some (Vis_setInc (Vis_setVisMax g d) n)).
Proof. intros s a w x d g n W F A <-. apply (max_fraction_append _ _ _ _ s); [exact W|]. eauto. Qed.
Lemma do_runway : forall w r g n, Runway_text true w r -> Vis_appendRunway g w n
  = Ok (Some (Vis_setInc (Vis_setType (Vis_setRw g (Some r)) (match vi_type g with Vi_PREVAILING => Vi_RUNWAY | Vi_VARIABLE_PREVAILING => Vi_VARIABLE_RUNWAY | t => t end)) n)).
Proof. intros w r g n R. apply runway_append. eauto. Qed.
Lemma do_place : forall w p g n, Place_text w p -> Vis_appendDirection g w n = Ok (Some (placed g p n)).
Proof. intros w p g n T. apply place_append. eauto. Qed.
Ltac side := first [eassumption | reflexivity | left; reflexivity | right; eexists; apply whole_miles; eassumption].
Ltac skip l := rewrite l by side; cbn [try_append bind].
Definition Made (part : ReportPart) (now : option MetafTime) (ws : list string) (g : VisibilityGroup) : Prop := Assembled part now ws (GVisibility g).
Lemma made_more : forall part now ws w g g', Made part now ws g -> VisibilityGroup_append g w part (md_at now) = Ok (g', APPENDED) ->
  Made part now (ws ++ [w]) g'.
Proof. intros part now ws w g g' M A. eapply assembled_more; [exact M|exact A]. Qed.
(** The steps in remarks *)
Lemma mk_vis : forall now, Made RP_RMK now ["VIS"] (of_sight (seen Around no_distance) ViI_VIS).
Proof. intros now. apply assembled_first. reflexivity. Qed.
Lemma mk_integer : forall now w d, Whole_miles w d -> Made RP_RMK now ["VIS"; w] (of_sight (seen Around d) ViI_VIS_INTEGER).
Proof.
  intros now w d W. refine (made_more RP_RMK now ["VIS"] w _ _ (mk_vis now) _). pose proof (whole_lang _ _ W : Lang (re_kind K_whole) w) as L.
  unfold VisibilityGroup_append. cbn [of_sight vi_inc]. rewrite (not_misg _ _ L), (no_direction K_whole) by exact L. cbn [try_append bind].
  rewrite (do_integer w d) by side. reflexivity.
Qed.
Lemma mk_amount : forall now ws d, Amount ws d -> (exists w, ws = [w] /\ Whole_miles w d) \/
  Made RP_RMK now ("VIS" :: ws) (of_sight (seen Around d) ViI_VIS_FRACTION_OR_METERS).
Proof.
  intros now ws d A. destruct A as [w d W|w d W|w x a b d W B Ad].
  - left. eauto.
  - right. refine (made_more RP_RMK now ["VIS"] w _ _ (mk_vis now) _). pose proof (broken_lang _ _ W : Lang (re_kind K_broken) w) as L.
    unfold VisibilityGroup_append. cbn [of_sight vi_inc]. rewrite (not_misg _ _ L), (no_direction K_broken) by exact L. cbn [try_append bind].
    rewrite (no_integer K_broken) by (exact L || reflexivity). cbn [try_append bind].
    rewrite (do_fraction w d) by side. reflexivity.
  - right. refine (made_more RP_RMK now ["VIS"; w] x _ _ (mk_integer now w a W) _). pose proof (broken_lang _ _ B : Lang (re_kind K_broken) x) as L.
    unfold VisibilityGroup_append. cbn [of_sight vi_inc].
    rewrite (no_variable K_broken) by (exact L || reflexivity || (right; exists w; apply whole_miles; exact W)). cbn [try_append bind].
    rewrite (do_fraction_add w x a b d) by side. reflexivity.
Qed.
Lemma mk_meters : forall now x d, Meters_number x d -> Made RP_RMK now ["VIS"; x] (of_sight (seen Around d) ViI_VIS_FRACTION_OR_METERS).
Proof.
  intros now w d W. refine (made_more RP_RMK now ["VIS"] w _ _ (mk_vis now) _). pose proof (meters_lang _ _ W : Lang (re_kind K_meters) w) as L.
  unfold VisibilityGroup_append. cbn [of_sight vi_inc]. rewrite (not_misg _ _ L). skip (no_direction K_meters). skip (no_integer K_meters). skip (no_fraction K_meters).
  skip (no_variable K_meters). rewrite (do_meters w d) by side. reflexivity.
Qed.
Lemma mk_place : forall now w p, Place_text w p -> Made RP_RMK now ["VIS"; w] (of_sight (seen p no_distance) ViI_VIS_DIR).
Proof.
  intros now w p T. refine (made_more RP_RMK now ["VIS"] w _ _ (mk_vis now) _).
  unfold VisibilityGroup_append. cbn [of_sight vi_inc]. rewrite (place_misg _ _ T). rewrite (do_place w p) by side.
  destruct (place_not_along _ _ T) as [(x & ->)|(x & y & ->)]; reflexivity.
Qed.
(** The word with the letter V: complete unless the upper end is given in whole miles *)
Definition after_range (b : string) : ViInc := if has "/" b then ViI_VIS_VAR else ViI_VIS_VAR_MAX_INT.
Lemma mk_range : forall now before a b low high, Low before a low -> Miles "" b high ->
  Made RP_RMK now ("VIS" :: before ++ [a ++ "V" ++ b]) (of_sight (varies Around low high) (after_range b)).
Proof.
  intros now before a b low high Lo B. destruct Lo as [a low A|w x c min low W A Ad].
  - refine (made_more RP_RMK now ["VIS"] (a ++ "V" ++ b) _ _ (mk_vis now) _). pose proof (var_lang _ _ _ _ A B : Lang (re_kind K_range) (a ++ "V" ++ b)) as L.
    unfold VisibilityGroup_append. cbn [of_sight vi_inc]. rewrite (not_misg _ _ L). skip (no_direction K_range). skip (no_integer K_range). skip (no_fraction K_range).
    rewrite (do_variable a b low high) by side. reflexivity.
  - refine (made_more RP_RMK now ["VIS"; w] (x ++ "V" ++ b) _ _ (mk_integer now w c W) _).
    unfold VisibilityGroup_append. cbn [of_sight vi_inc]. rewrite (do_variable_add w c x b min low high) by side. reflexivity.
Qed.
Lemma mk_full_range : forall now ws low high, Range ws low high -> exists i, (i = ViI_VIS_VAR \/ i = ViI_VIS_VAR_MAX_INT /\ exists b, Whole_miles b high)
  /\ Made RP_RMK now ("VIS" :: ws) (of_sight (varies Around low high) i).
Proof.
  intros now ws low high R. destruct R as [before a b after low high L H|a b low high A B].
  - destruct H as [b high B|b x y c high W F Ad].
    + pose proof (mk_range now before a b low high L B) as M. exists (after_range b). split; [|exact M].
      unfold after_range. destruct (has "/" b) eqn:E; [left; reflexivity|right]. split; [reflexivity|]. exists b. exact (high_whole _ _ B E).
    + pose proof (mk_range now before a b low y L (whole_miles _ _ W)) as M. exists ViI_VIS_VAR. split; [left; reflexivity|].
      assert (E : after_range b = ViI_VIS_VAR_MAX_INT) by (unfold after_range; rewrite (lang_has "/" re_whole b eq_refl (whole_lang _ _ W)); reflexivity).
      rewrite E in M. rewrite app_assoc. refine (made_more RP_RMK now _ x _ _ M _).
      unfold VisibilityGroup_append. cbn [of_sight vi_inc]. rewrite (do_maximum b y x c high) by side. reflexivity.
  - exists ViI_VIS_VAR. split; [left; reflexivity|].
    refine (made_more RP_RMK now ["VIS"] (a ++ "V" ++ b) _ _ (mk_vis now) _). pose proof (vmeters_lang _ _ _ _ A B : Lang (re_kind K_meters_range) (a ++ "V" ++ b)) as L.
    unfold VisibilityGroup_append. cbn [of_sight vi_inc]. rewrite (not_misg _ _ L). skip (no_direction K_meters_range). skip (no_integer K_meters_range). skip (no_fraction K_meters_range).
    skip (no_variable K_meters_range). skip (no_meters K_meters_range). rewrite (do_meters_range a b low high) by side. reflexivity.
Qed.
(** The same after a direction *)
Lemma mk_place_integer : forall now w p x d, Place_text w p -> Whole_miles x d -> Made RP_RMK now ["VIS"; w; x] (of_sight (seen p d) ViI_VIS_DIR_INTEGER).
Proof.
  intros now w p x d T W. refine (made_more RP_RMK now ["VIS"; w] x _ _ (mk_place now w p T) _).
  unfold VisibilityGroup_append. cbn [of_sight vi_inc].
  destruct (place_not_along _ _ T) as [(y & ->)|(y & z & ->)]; rewrite (do_integer x d) by side; reflexivity.
Qed.
Lemma mk_place_amount : forall now w p ws d, Place_text w p -> Amount ws d -> exists i, (i = ViI_NONE \/ i = ViI_VIS_DIR_INTEGER)
  /\ Made RP_RMK now (["VIS"; w] ++ ws) (of_sight (seen p d) i).
Proof.
  intros now w p ws d T A. destruct A as [x d W|x d W|v x a b d W B Ad].
  - exists ViI_VIS_DIR_INTEGER. split; [right; reflexivity|]. exact (mk_place_integer now w p x d T W).
  - exists ViI_NONE. split; [left; reflexivity|]. refine (made_more RP_RMK now ["VIS"; w] x _ _ (mk_place now w p T) _). pose proof (broken_lang _ _ W : Lang (re_kind K_broken) x) as L.
    unfold VisibilityGroup_append. cbn [of_sight vi_inc].
    destruct (place_not_along _ _ T) as [(y & ->)|(y & z & ->)]; skip (no_integer K_broken); skip (no_variable K_broken); rewrite (do_fraction x d) by side; reflexivity.
  - exists ViI_NONE. split; [left; reflexivity|]. refine (made_more RP_RMK now ["VIS"; w; v] x _ _ (mk_place_integer now w p v a T W) _).
    unfold VisibilityGroup_append. cbn [of_sight vi_inc].
    destruct (place_not_along _ _ T) as [(y & ->)|(y & z & ->)]; rewrite (do_fraction_add v x a b d) by side; reflexivity.
Qed.
Definition after_place_range (b : string) : ViInc := if has "/" b then ViI_NONE else ViI_VIS_DIR_VAR_MAX_INT.
Lemma mk_place_range : forall now w p before a b low high, Place_text w p -> Low before a low -> Miles "" b high ->
  Made RP_RMK now (["VIS"; w] ++ before ++ [a ++ "V" ++ b]) (of_sight (varies p low high) (after_place_range b)).
Proof.
  intros now w p before a b low high T Lo B. destruct Lo as [a low A|v x c min low W A Ad].
  - refine (made_more RP_RMK now ["VIS"; w] (a ++ "V" ++ b) _ _ (mk_place now w p T) _). pose proof (var_lang _ _ _ _ A B : Lang (re_kind K_range) (a ++ "V" ++ b)) as L.
    unfold VisibilityGroup_append. cbn [of_sight vi_inc].
    destruct (place_not_along _ _ T) as [(y & ->)|(y & z & ->)]; skip (no_integer K_range); rewrite (do_variable a b low high) by side; reflexivity.
  - refine (made_more RP_RMK now ["VIS"; w; v] (x ++ "V" ++ b) _ _ (mk_place_integer now w p v c T W) _). pose proof (var_lang _ _ _ _ A B : Lang (re_kind K_range) (x ++ "V" ++ b)) as L.
    unfold VisibilityGroup_append. cbn [of_sight vi_inc].
    destruct (place_not_along _ _ T) as [(y & ->)|(y & z & ->)]; skip (no_fraction K_range); rewrite (do_variable_add v c x b min low high) by side; reflexivity.
Qed.
Lemma mk_place_full_range : forall now w p ws low high, Place_text w p -> Range ws low high -> exists i, (i = ViI_NONE \/ i = ViI_VIS_DIR_VAR_MAX_INT)
  /\ Made RP_RMK now (["VIS"; w] ++ ws) (of_sight (varies p low high) i).
Proof.
  intros now w p ws low high T R. destruct R as [before a b after low high L H|a b low high A B].
  - destruct H as [b high B|b x y c high W F Ad].
    + pose proof (mk_place_range now w p before a b low high T L B) as M. exists (after_place_range b). split; [|exact M].
      unfold after_place_range. destruct (has "/" b); auto.
    + pose proof (mk_place_range now w p before a b low y T L (whole_miles _ _ W)) as M. exists ViI_NONE. split; [left; reflexivity|].
      assert (E : after_place_range b = ViI_VIS_DIR_VAR_MAX_INT) by (unfold after_place_range; rewrite (lang_has "/" re_whole b eq_refl (whole_lang _ _ W)); reflexivity).
      rewrite E in M. rewrite !app_assoc. rewrite <- (app_assoc _ before). refine (made_more RP_RMK now _ x _ _ M _).
      unfold VisibilityGroup_append. cbn [of_sight vi_inc]. rewrite (do_maximum b y x c high) by side. reflexivity.
  - exists ViI_NONE. split; [left; reflexivity|].
    refine (made_more RP_RMK now ["VIS"; w] (a ++ "V" ++ b) _ _ (mk_place now w p T) _). pose proof (vmeters_lang _ _ _ _ A B : Lang (re_kind K_meters_range) (a ++ "V" ++ b)) as L.
    unfold VisibilityGroup_append. cbn [of_sight vi_inc].
    destruct (place_not_along _ _ T) as [(y & ->)|(y & z & ->)]; skip (no_integer K_meters_range); skip (no_variable K_meters_range); skip (no_fraction K_meters_range);
      rewrite (do_meters_range a b low high) by side; reflexivity.
Qed.
Lemma mk_observer : forall now w t, In (w, t) [("SFC", Vi_SURFACE); ("TWR", Vi_TOWER)] -> Made RP_RMK now [w; "VIS"] (of_sight (told t Around no_distance) ViI_SFC_OR_TWR_VIS).
Proof.
  intros now w t I. refine (made_more RP_RMK now [w] "VIS" (of_sight (told t Around no_distance) ViI_SFC_OR_TWR) _ _ _); [|reflexivity].
  destruct I as [I|[I|[]]]; injection I as <- <-; apply assembled_first; reflexivity.
Qed.
Lemma mk_observer_integer : forall now w t x d, In (w, t) [("SFC", Vi_SURFACE); ("TWR", Vi_TOWER)] -> Whole_miles x d ->
  Made RP_RMK now [w; "VIS"; x] (of_sight (told t Around d) ViI_SFC_OR_TWR_VIS_INTEGER).
Proof.
  intros now w t x d I W. refine (made_more RP_RMK now [w; "VIS"] x _ _ (mk_observer now w t I) _).
  unfold VisibilityGroup_append. cbn [of_sight vi_inc]. destruct I as [I|[I|[]]]; injection I as <- <-; rewrite (do_integer x d) by side; reflexivity.
Qed.
Lemma mk_observer_amount : forall now w t ws d, In (w, t) [("SFC", Vi_SURFACE); ("TWR", Vi_TOWER)] -> Amount ws d -> exists i, (i = ViI_NONE \/ i = ViI_SFC_OR_TWR_VIS_INTEGER)
  /\ Made RP_RMK now ([w; "VIS"] ++ ws) (of_sight (told t Around d) i).
Proof.
  intros now w t ws d I A. destruct A as [x d W|x d W|v x a b d W B Ad].
  - exists ViI_SFC_OR_TWR_VIS_INTEGER. split; [right; reflexivity|]. exact (mk_observer_integer now w t x d I W).
  - exists ViI_NONE. split; [left; reflexivity|]. refine (made_more RP_RMK now [w; "VIS"] x _ _ (mk_observer now w t I) _). pose proof (broken_lang _ _ W : Lang (re_kind K_broken) x) as L.
    unfold VisibilityGroup_append. cbn [of_sight vi_inc].
    destruct I as [I|[I|[]]]; injection I as <- <-; skip (no_integer K_broken); rewrite (do_fraction x d) by side; reflexivity.
  - exists ViI_NONE. split; [left; reflexivity|]. refine (made_more RP_RMK now [w; "VIS"; v] x _ _ (mk_observer_integer now w t v a I W) _).
    unfold VisibilityGroup_append. cbn [of_sight vi_inc].
    destruct I as [I|[I|[]]]; injection I as <- <-; rewrite (do_fraction_add v x a b d) by side; reflexivity.
Qed.
(** METAR and TAF *)
Lemma no_whole_first : forall r w, exclusive r re_whole = true -> Lang r w -> Vis_fromIncompleteInteger w = Ok None.
Proof.
  intros r w E L. apply none_of; [apply ok_Vis_fromIncompleteInteger|]. intros x H. apply incomplete_words in H. destruct H as (a & W & _).
  exact (exclusive_lang r re_whole w E L (whole_lang _ _ W)).
Qed.
Lemma no_meters_first : forall r w, exclusive r rgx_vismeters = true -> Lang r w -> Vis_fromMeters w = Ok None.
Proof. intros r w E L. unfold Vis_fromMeters. rewrite (exclusive_match r rgx_vismeters w E L). reflexivity. Qed.
Lemma body_part : forall part, part = RP_METAR \/ part = RP_TAF -> is_part part RP_RMK = false /\ is_part part RP_METAR || is_part part RP_TAF = true.
Proof. intros part [-> | ->]; split; reflexivity. Qed.
Lemma mk_miles : forall part now w d, part = RP_METAR \/ part = RP_TAF -> Miles "SM" w d -> Made part now [w] (of_sight (seen Around d) ViI_NONE).
Proof.
  intros part now w d P M. apply assembled_first. cbn [parsed_as]. unfold VisibilityGroup_parse. cbv zeta. destruct (body_part _ P) as [-> ->]. cbn [andb].
  pose proof (sm_lang _ _ M) as L. rewrite (no_whole_first re_sm w eq_refl L), (no_meters_first re_sm w eq_refl L).
  rewrite (proj2 (miles_words w false d)) by (left; exact M). reflexivity.
Qed.
Lemma mk_no_miles : forall part now, part = RP_METAR \/ part = RP_TAF -> Made part now ["////SM"] (of_sight (seen Around (mkDist DM_NONE None STATUTE_MILES)) ViI_NONE).
Proof. intros part now [-> | ->]; apply assembled_first; reflexivity. Qed.
Lemma mk_two_words : forall part now w x a b d, part = RP_METAR \/ part = RP_TAF -> Whole_miles w a -> distModifier a = DM_NONE -> Miles "SM" x b -> Added a b d ->
  Made part now [w; x] (of_sight (seen Around d) ViI_NONE).
Proof.
  intros part now w x a b d P W M B Ad. refine (made_more part now [w] x (of_sight (seen Around a) ViI_INTEGER) _ _ _).
  - apply assembled_first. cbn [parsed_as]. unfold VisibilityGroup_parse. cbv zeta. destruct (body_part _ P) as [-> ->]. cbn [andb].
    rewrite (proj2 (incomplete_words w _)) by (exists a; split; [exact W|split; [exact M|reflexivity]]). reflexivity.
  - unfold VisibilityGroup_append. cbn [of_sight vi_inc].
    assert (E : forall g n, vi_vis g = a -> vi_type g = Vi_PREVAILING -> Vis_appendFractionToIncompleteInteger g x n = Ok (Some (Vis_setInc (Vis_setVis g d) n))).
    { intros g n <- T. apply (mile_fraction_add g x n _ w); [apply whole_miles; exact W|rewrite T; reflexivity|]. eauto. }
    rewrite E by reflexivity. reflexivity.
Qed.
Lemma mk_in_meters : forall part now w v, part = RP_METAR \/ part = RP_TAF -> In_meters w v -> Made part now [w] (of_sight v ViI_NONE).
Proof.
  intros part now w v P M. apply assembled_first. cbn [parsed_as]. unfold VisibilityGroup_parse. cbv zeta. destruct (body_part _ P) as [-> ->]. cbn [andb].
  assert (X : Vis_fromMeters w = Ok (Some (of_sight v ViI_NONE))) by (apply meters_words; eauto).
  assert (L : Lang rgx_vismeters w).
  { unfold Vis_fromMeters in X. destruct (regex_match rgx_vismeters w) as [m|] eqn:R; [|discriminate X]. exact (matched_lang _ _ _ R). }
  rewrite (no_whole_first rgx_vismeters w eq_refl L), X. reflexivity.
Qed.
Lemma mk_runway_range : forall now w v, Runway_range w v -> Made RP_METAR now [w] (of_sight v ViI_NONE).
Proof.
  intros now w v R. apply assembled_first. cbn [parsed_as]. unfold VisibilityGroup_parse. cbv zeta. cbn [is_part ReportPart_beq andb orb].
  assert (X : Vis_fromRvr w = Ok (Some (of_sight v ViI_NONE))) by (apply rvr_words; eauto).
  assert (L : Lang rgx_rvr w).
  { unfold Vis_fromRvr in X. destruct (regex_match rgx_rvr w) as [m|] eqn:E; [|discriminate X]. exact (matched_lang _ _ _ E). }
  rewrite (no_whole_first rgx_rvr w), (no_meters_first rgx_rvr w) by ((vm_compute; reflexivity) || exact L).
  assert (N : Distance_fromMileString w false = Ok None).
  { apply none_of; [apply ok_Distance_fromMileString|]. intros d D. apply miles_words in D. destruct D as [D|(_ & -> & _)].
    - refine (exclusive_lang rgx_rvr re_sm w _ L (sm_lang _ _ D)). vm_compute. reflexivity.
    - discriminate X. }
  rewrite N. exact X.
Qed.
Lemma visibility_made : forall part now ws v, Visibility part ws v -> exists i, completed i = true /\ Made part now ws (of_sight v i).
Proof.
  intros part now ws v V. destruct V; try subst part.
  - exists ViI_NONE. split; [reflexivity|]. apply mk_miles; assumption.
  - exists ViI_NONE. split; [reflexivity|]. apply mk_no_miles; assumption.
  - exists ViI_NONE. split; [reflexivity|]. eapply mk_two_words; eassumption.
  - exists ViI_NONE. split; [reflexivity|]. apply mk_in_meters; [assumption|constructor; assumption].
  - exists ViI_NONE. split; [reflexivity|]. apply mk_in_meters; [assumption|constructor; assumption].
  - exists ViI_NONE. split; [reflexivity|]. apply mk_in_meters; [assumption|constructor; assumption].
  - exists ViI_NONE. split; [reflexivity|]. apply mk_in_meters; [assumption|constructor; assumption].
  - exists ViI_NONE. split; [reflexivity|]. apply mk_runway_range; assumption.
  - exists ViI_NONE. split; [reflexivity|]. refine (made_more RP_RMK now ["VIS"] "MISG" _ _ (mk_vis now) _). reflexivity.
  - destruct (mk_place_amount now w p ws d H0 H1) as (i & I & M). exists i. split; [destruct I as [-> | ->]; reflexivity|exact M].
  - destruct (mk_place_full_range now w p ws low high H0 H1) as (i & I & M). exists i. split; [destruct I as [-> | ->]; reflexivity|exact M].
  - destruct (mk_full_range now ws low high H0) as (i & I & M). exists i. split; [destruct I as [-> |[-> _]]; reflexivity|exact M].
  - destruct (mk_full_range now ws low high H0) as (i & I & M). exists ViI_NONE. split; [reflexivity|].
    refine (made_more RP_RMK now ("VIS" :: ws) w _ _ M _). pose proof (runway_lang _ _ H1 : Lang (re_kind K_runway) w) as L.
    unfold VisibilityGroup_append. cbn [of_sight vi_inc]. destruct I as [-> |[-> (b & W)]].
    + rewrite (do_runway w r) by side. reflexivity.
    + rewrite (no_maximum K_runway _ w ViI_VIS_VAR b) by side. cbn [try_append bind]. rewrite (do_runway w r) by side. reflexivity.
  - exists ViI_NONE. split; [reflexivity|]. pose proof (runway_lang _ _ H1 : Lang (re_kind K_runway) w) as L. destruct (mk_amount now ws d H0) as [(x & -> & W)|M].
    + refine (made_more RP_RMK now ["VIS"; x] w _ _ (mk_integer now x d W) _). unfold VisibilityGroup_append. cbn [of_sight vi_inc].
      skip (no_variable K_runway). skip (no_fraction K_runway). rewrite (do_runway w r) by side. reflexivity.
    + refine (made_more RP_RMK now ("VIS" :: ws) w _ _ M _). unfold VisibilityGroup_append. cbn [of_sight vi_inc]. rewrite (do_runway w r) by side. reflexivity.
  - exists ViI_NONE. split; [reflexivity|]. refine (made_more RP_RMK now ["VIS"; x] w _ _ (mk_meters now x d H0) _). unfold VisibilityGroup_append. cbn [of_sight vi_inc].
    rewrite (do_runway w r) by side. reflexivity.
  - destruct (mk_observer_amount now w t ws d H0 H1) as (i & I & M). exists i. split; [destruct I as [-> | ->]; reflexivity|exact M].
  - exists ViI_NONE. split; [reflexivity|]. refine (made_more RP_RMK now [w; "VIS"] x _ _ (mk_observer now w t H0) _).
    pose proof (meters_lang _ _ H1 : Lang (re_kind K_meters) x) as L. unfold VisibilityGroup_append. cbn [of_sight vi_inc].
    destruct H0 as [I|[I|[]]]; injection I as <- <-; skip (no_integer K_meters); skip (no_fraction K_meters); rewrite (do_meters x d) by side; reflexivity.
  - exists ViI_NONE. split; [reflexivity|]. refine (made_more RP_RMK now ["RVR"] "MISG" (of_sight (told Vi_RVR_MISG Around no_distance) ViI_RVR) _ _ _); [apply assembled_first; reflexivity|reflexivity].
  - exists ViI_NONE. split; [reflexivity|]. apply assembled_first; reflexivity.
  - exists ViI_VISNO. split; [reflexivity|]. apply assembled_first; reflexivity.
  - exists ViI_NONE. split; [reflexivity|]. refine (made_more RP_RMK now ["VISNO"] w (of_sight (told Vi_VISNO Around no_distance) ViI_VISNO) _ _ _); [apply assembled_first; reflexivity|].
    unfold VisibilityGroup_append. cbn [of_sight vi_inc]. rewrite (do_runway w r) by side. reflexivity.
  - exists ViI_NONE. split; [reflexivity|]. refine (made_more RP_RMK now ["VISNO"] w (of_sight (told Vi_VISNO Around no_distance) ViI_VISNO) _ _ _); [apply assembled_first; reflexivity|].
    unfold VisibilityGroup_append. cbn [of_sight vi_inc]. rewrite (no_place_runway _ w ViI_NONE p H0). cbn [try_append bind]. rewrite (do_place w p) by side.
    destruct (place_not_along _ _ H0) as [(y & ->)|(y & z & ->)]; reflexivity.
Qed.
Lemma told_seen : forall part ws v i, Visibility part ws v -> seen_by (of_sight v i) = v.
Proof.
  intros part ws v i V. destruct V as [| | | | | | |w s P R| | | | | | | |w t ws d P [I|[I|[]]]|w t x d P [I|[I|[]]]| | | | |];
    try (injection I as <- <-); try (destruct R); try reflexivity; try (destruct p; reflexivity).
Qed.
Lemma completed_may_end : forall part v i, completed i = true -> may_end part (GVisibility (of_sight v i)).
Proof.
  intros part v i C. exists "", (md_at None), (GVisibility (of_sight v ViI_NONE)). apply appended_iff. cbn [appended_as]. destruct i; try discriminate C; reflexivity.
Qed.
Lemma may_end_completed : forall part g, may_end part (GVisibility g) -> completed (vi_inc g) = true.
Proof.
  intros part g (w & md & g' & A). apply appended_inv in A. destruct g'; try contradiction. cbn [appended_as] in A. apply refused_completed in A. apply A.
Qed.

(** ** The theorems *)
Lemma assembled_vis : forall part now ws g, Assembled part now ws (GVisibility g) -> State part ws g.
Proof.
  intros part now ws g H.
  refine (assembled_kind part now (fun ws k => match k with GVisibility x => State part ws x | _ => True end) _ _ ws (GVisibility g) H).
  - intros w md [] _ P; try exact I. exact (vis_first _ _ _ _ P).
  - intros ws' w md [] [] _ IH T A; try exact I; try contradiction. exact (vis_next _ _ _ _ _ _ IH A).
Qed.
Lemma refused_any : forall g w part md part', VisibilityGroup_append g w part md = VisibilityGroup_append g w part' md.
Proof. reflexivity. Qed.
Lemma built_vis : forall part ws g, Built part ws (GVisibility g) -> State part ws g.
Proof.
  intros part ws g H.
  refine (Pf_WeatherWords.built_kind part (fun ws k => match k with GVisibility x => State part ws x | _ => True end) _ _ _ _ ws (GVisibility g) H).
  - exact (fun _ => I).
  - intros w md [] P; try exact I. exact (vis_first _ _ _ _ P).
  - intros ws' w md [] [] _ IH A; try exact I; try contradiction. exact (vis_next _ _ _ _ _ _ IH A).
  - intros ws' w part' md [] [] _ IH A; try exact I; try contradiction. exact (vis_refused part ws' _ w md _ IH A).
Qed.
Theorem visibility_words : forall part now words,
  (forall g, Assembled part now words (GVisibility g) -> may_end part (GVisibility g) -> Visibility part words (seen_by g))
  /\ (forall v, Visibility part words v -> exists g, Assembled part now words (GVisibility g) /\ may_end part (GVisibility g) /\ seen_by g = v).
Proof.
  intros part now words. split.
  - intros g A E. apply assembled_vis in A. apply may_end_completed in E. destruct (completed_told _ _ _ A E) as (v & V & ->). rewrite (told_seen _ _ _ _ V). exact V.
  - intros v V. destruct (visibility_made part now words v V) as (i & C & M). exists (of_sight v i). split; [exact M|]. split; [exact (completed_may_end _ _ _ C)|exact (told_seen _ _ _ _ V)].
Qed.
(** Groups of a result still waiting for words are of few kinds. *)
Lemma result_waits : forall sgn report limit r, parse sgn report limit = Ok r ->
  forall g part raw, In (mkGroupInfo g part raw) (pr_groups r) -> raw <> "" -> waiting g = true -> may_stay g.
Proof.
  intros sgn report limit r E g part raw Hi N W.
  pose proof (proj1 (Forall_forall _ _) (result_settled _ _ _ _ E) _ Hi) as S.
  destruct S as [S|[S|(g0 & s & p & md & R & A)]]; cbn [gi_rawString gi_group] in *.
  - contradiction.
  - destruct g; discriminate.
  - assert (F : is_fallback g0 = false).
    { apply appended_inv in A. destruct g0, g; try contradiction; try discriminate W; reflexivity. }
    exact (refused _ _ _ _ _ R F A W).
Qed.
Theorem result_visibility : forall sgn report limit r, parse sgn report limit = Ok r ->
  forall g part raw, In (mkGroupInfo (GVisibility g) part raw) (pr_groups r) -> raw <> "" ->
  Visibility part (words_of raw) (seen_by g).
Proof.
  intros sgn report limit r E g part raw Hi N.
  pose proof (built_vis _ _ _ (Pf_Built.built_from_words _ _ _ _ E _ _ _ Hi N)) as B.
  assert (C : completed (vi_inc g) = true).
  { destruct (waiting (GVisibility g)) eqn:W; [destruct (result_waits _ _ _ _ E _ _ _ Hi N W)|].
    cbn in W. destruct (vi_inc g); discriminate W || reflexivity. }
  destruct (completed_told _ _ _ B C) as (v & V & ->). rewrite (told_seen _ _ _ _ V). exact V.
Qed.
(** C39 *)
Lemma fields_kept : forall g i, fields_match_type g -> fields_match_type (Vis_setInc g i).
Proof. intros g i H. exact H. Qed.
Lemma no_sector : VisibilityGroup_sectorDirections (of_sight (seen Around no_distance) ViI_NONE) = Ok nil.
Proof. vm_compute. reflexivity. Qed.
Lemma sectors_none : forall g, vi_secFrom g = None -> vi_secTo g = None -> VisibilityGroup_sectorDirections g = Ok nil.
Proof. intros g A B. unfold VisibilityGroup_sectorDirections. rewrite A, B. exact no_sector. Qed.
Ltac listed := cbn [In variable_types runway_types directional_types sector_types]; intuition (try discriminate; try congruence).
Lemma fields_told : forall t p d i, Vis_isVariable t = false -> ~ In t variable_types ->
  (runway_of p <> None -> In t runway_types) -> (direction_of p <> None -> In t directional_types) -> (sector_of p <> None -> In t sector_types) ->
  (In t [Vi_RUNWAY; Vi_VARIABLE_RUNWAY] -> runway_of p <> None) ->
  (In t [Vi_DIRECTIONAL; Vi_VARIABLE_DIRECTIONAL; Vi_PREVAILING_NDV] -> direction_of p <> None) ->
  fields_match_type (of_sight (told t p d) i).
Proof.
  intros t p d i T N R D S R' D'. unfold fields_match_type, VisibilityGroup_visibility, VisibilityGroup_minVisibility, VisibilityGroup_maxVisibility.
  cbn [of_sight told s_type s_visibility s_minimum s_maximum s_trend s_direction s_runway s_sector vi_type vi_vis vi_visMax vi_trend vi_dir vi_rw]. rewrite T. cbn [negb].
  split; [split; [discriminate|intros X; destruct (N X)]|]. split; [discriminate|]. split; [intros _; exact N|]. split; [exact R|]. split; [exact D|].
  split; [|split; [exact R'|split; [exact D'|intros X; destruct X; reflexivity]]].
  intros X. apply S. intros E. apply X. apply sectors_none; cbn; rewrite E; reflexivity.
Qed.
Lemma fields_seen : forall p d i, fields_match_type (of_sight (seen p d) i).
Proof. intros p d i. destruct p; apply fields_told; try reflexivity; cbn; intuition discriminate. Qed.
Lemma fields_varies : forall p low high i, Distance_isReported high = true -> fields_match_type (of_sight (varies p low high) i).
Proof.
  intros p low high i H. unfold fields_match_type, VisibilityGroup_visibility, VisibilityGroup_minVisibility, VisibilityGroup_maxVisibility.
  destruct p; cbn [of_sight varies variable_type_of direction_of runway_of sector_of s_type s_visibility s_minimum s_maximum s_trend s_direction s_runway s_sector vi_type vi_vis vi_visMax vi_trend vi_dir vi_rw Vis_isVariable negb];
    rewrite H; (split; [split; [intros _; cbn; intuition|intros _; reflexivity]|]); (split; [intros _; cbn; intuition|]); (split; [discriminate|]);
    (split; [intros X; try (destruct X; reflexivity); cbn; intuition|]); (split; [intros X; try (destruct X; reflexivity); cbn; intuition|]);
    (split; [intros X; try (destruct X; apply sectors_none; reflexivity); cbn; intuition|]); (split; [intros X; cbn in X; intuition discriminate|]); (split; [intros X; cbn in X; intuition discriminate|]);
    intros X; destruct X; reflexivity.
Qed.
Lemma added_reported : forall a b d, Added a b d -> Distance_isReported d = true.
Proof. intros a b d (m & x & y & _ & _ & _ & _ & ->). reflexivity. Qed.
Lemma number_reported : forall w d, Meters_number w d -> Distance_isReported d = true.
Proof. intros w d [[[E _]|[[_ ->]|(v & _ & _ & ->)]] N]; [contradiction|reflexivity|reflexivity]. Qed.
Lemma high_reported : forall b after d, High b after d -> Distance_isReported d = true.
Proof. intros b after d [x e M|x y a c e W F A]; [exact (miles_reported _ _ _ M)|exact (added_reported _ _ _ A)]. Qed.
Lemma range_reported : forall ws low high, Range ws low high -> Distance_isReported high = true.
Proof. intros ws low high [before a b after lo hi L H|a b lo hi A B]; [exact (high_reported _ _ _ H)|exact (number_reported _ _ B)]. Qed.
Lemma visual_reported : forall feet y d, Visual_range feet y d -> y <> "////" -> Distance_isReported d = true.
Proof. intros feet y d [[E _]|(p & m & n & v & _ & _ & _ & ->)] N; [contradiction|reflexivity]. Qed.
Lemma fields_runway_range : forall w v i, Runway_range w v -> fields_match_type (of_sight v i).
Proof.
  intros w v i R. unfold fields_match_type, VisibilityGroup_visibility, VisibilityGroup_minVisibility, VisibilityGroup_maxVisibility.
  destruct R as [r x e runway feet d t R X E|r x y e runway feet low high t R X Y N E|e feet t E N|y e feet high t Y N E T]; try (rewrite (visual_reported _ _ _ Y N : Distance_isReported (vi_visMax _) = true));
  cbn [of_sight s_type s_visibility s_minimum s_maximum s_trend s_direction s_runway s_sector vi_type vi_vis vi_visMax vi_trend vi_dir vi_rw Vis_isVariable negb];
  repeat match goal with |- _ /\ _ => split | |- _ <-> _ => split end; try discriminate; try (cbn; intuition discriminate); try (intros X0; cbn in X0; intuition discriminate);
  try (intros X0; destruct X0; apply sectors_none; reflexivity); try (intros _; exact (visual_reported _ _ _ Y N)).
Qed.
Lemma state_fields : forall part ws g, State part ws g -> fields_match_type g.
Proof.
  assert (T : forall t i, In t [Vi_VIS_MISG; Vi_RVR_MISG; Vi_RVRNO; Vi_VISNO; Vi_SURFACE; Vi_TOWER] -> forall d, fields_match_type (of_sight (told t Around d) i)).
  { intros t i I d. apply fields_told; cbn in I; try (cbn; intuition (subst; discriminate || reflexivity)); intuition (subst; discriminate || reflexivity). }
  intros part ws g St. destruct St as [ws v V|w0 a P W M|P|w0 a P W|ws d P A|before a b low high P L W|ws low high P R|w0 p P Pl|w0 p x d P Pl W|w0 p before a b low high P Pl L W|w0 t P I|w0 t P I|w0 t x d P I W|P|P];
    try apply fields_seen; try (apply fields_varies; (exact (range_reported _ _ _ R) || exact (miles_reported _ _ _ (whole_miles _ _ W))));
    try (apply T; cbn in *; intuition congruence).
  destruct V; try apply fields_seen; try (apply T; cbn in *; intuition congruence); try (apply fields_varies; eapply range_reported; eassumption).
  - apply fields_told; try reflexivity; cbn; intuition discriminate.
  - eapply fields_runway_range. eassumption.
  - apply fields_told; try reflexivity; cbn; intuition discriminate.
  - destruct p; apply fields_told; try reflexivity; cbn; intuition discriminate.
Qed.
Theorem built_fields : forall part ws g, Built part ws (GVisibility g) -> fields_match_type g.
Proof. intros part ws g B. exact (state_fields _ _ _ (built_vis _ _ _ B)). Qed.
Theorem result_fields : forall sgn report limit r, parse sgn report limit = Ok r ->
  forall g part raw, In (mkGroupInfo (GVisibility g) part raw) (pr_groups r) -> raw <> "" -> fields_match_type g.
Proof. intros sgn report limit r E g part raw Hi N. exact (built_fields _ _ _ (Pf_Built.built_from_words _ _ _ _ E _ _ _ Hi N)). Qed.
Theorem invalidated_fields : exists g, Reachable (GVisibility g) /\ ~ fields_match_type g.
Proof.
  set (two := mkDist DM_NONE (Some 20000%N) STATUTE_MILES).
  exists (mkVis Vi_SURFACE (mkDist DM_NONE (Some 25000%N) STATUTE_MILES) two Vt_NONE None None None None ViI_NONE). split.
  - refine (Reach_append (GVisibility (of_sight (told Vi_SURFACE Around two) ViI_SFC_OR_TWR_VIS_INTEGER)) "1/2V2" RP_RMK (md_at None) _ GROUP_INVALIDATED _ _); [|vm_compute; reflexivity].
    refine (Reach_append (GVisibility (of_sight (told Vi_SURFACE Around no_distance) ViI_SFC_OR_TWR_VIS)) "2" RP_RMK (md_at None) _ APPENDED _ _); [|vm_compute; reflexivity].
    refine (Reach_append (GVisibility (of_sight (told Vi_SURFACE Around no_distance) ViI_SFC_OR_TWR)) "VIS" RP_RMK (md_at None) _ APPENDED _ _); [|vm_compute; reflexivity].
    refine (Reach_parse (alternative GVisibility VisibilityGroup_parse) "SFC" RP_RMK (md_at None) _ _ _); [cbn; tauto|reflexivity].
  - intros [H _]. destruct (proj1 H eq_refl) as [X|[X|[X|[X|[X|[]]]]]]; discriminate X.
Qed.
Theorem visibility_example : exists r g h k,
  parse true "METAR KJFK 280551Z 24010KT 1 1/2SM R04R/3000V6000FT/U BR OVC002 12/11 A3000 RMK VIS NW-NE 1/2V2 TWR VIS 3/4 AO2=" 100 = Ok r
  /\ In (mkGroupInfo (GVisibility g) RP_METAR "1 1/2SM") (pr_groups r)
  /\ In (mkGroupInfo (GVisibility h) RP_METAR "R04R/3000V6000FT/U") (pr_groups r)
  /\ In (mkGroupInfo (GVisibility k) RP_RMK "VIS NW-NE 1/2V2") (pr_groups r)
  /\ seen_by g = seen Around (mkDist DM_NONE (Some 15000%N) STATUTE_MILES)
  /\ s_maximum (seen_by h) = mkDist DM_NONE (Some 6000%N) FEET /\ s_trend (seen_by h) = Vt_UPWARD
  /\ s_minimum (seen_by k) = mkDist DM_NONE (Some 5000%N) STATUTE_MILES
  /\ s_sector (seen_by k) = Some (mkDir 315 DT_VALUE_CARDINAL, mkDir 45 DT_VALUE_CARDINAL).
Proof.
  eexists.
  exists (of_sight (seen Around (mkDist DM_NONE (Some 15000%N) STATUTE_MILES)) ViI_NONE).
  exists (mkVis Vi_VARIABLE_RVR (mkDist DM_NONE (Some 3000%N) FEET) (mkDist DM_NONE (Some 6000%N) FEET) Vt_UPWARD None (Some (mkRunway 4 Rw_RIGHT)) None None ViI_NONE).
  exists (of_sight (varies (Sector (mkDir 315 DT_VALUE_CARDINAL) (mkDir 45 DT_VALUE_CARDINAL)) (mkDist DM_NONE (Some 5000%N) STATUTE_MILES) (mkDist DM_NONE (Some 20000%N) STATUTE_MILES)) ViI_NONE).
  split; [vm_compute; reflexivity|]. split; [cbn; repeat (try (left; reflexivity); right)|].
  split; [cbn; repeat (try (left; reflexivity); right)|]. split; [cbn; repeat (try (left; reflexivity); right)|]. repeat split; vm_compute; reflexivity.
Qed.
