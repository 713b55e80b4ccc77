(** C79: what words say depends on nothing but the part of the report they stand in and the time of the report. *)
From Coq Require Import Lia Bool.
From Verif Require Import Prim Lib Regex Float Values Weather Groups1 Groups2 Groups3 Groups4 Parser
  SpecRegex SpecTokens SpecReads SpecText SpecReach SpecBuilt SpecAppend SpecAssembled SpecOpenings.
From Verif Require Import Pf_Regex Pf_Ok Pf_Caps Pf_Kinds Pf_View Pf_Formats Pf_Trend Pf_MinMax Pf_Refuse Pf_Same Pf_Settled Pf_Built Pf_Grown Pf_OneKind Pf_TimeOnly Pf_Openings Pf_Sentence Pf_Division Pf_Disjoint Pf_Grammar Pf_Assembled.
Local Open Scope string_scope.

(** A group which has refused a word *)
Definition settle (g : Group) : Group :=
  match g with
  | GVisibility k => GVisibility (Vis_setInc k ViI_NONE)
  | GCloud k => GCloud (Cloud_setInc k ClI_NONE)
  | GVicinity k => GVicinity (Vicinity_setInc k VcI_NONE)
  | _ => g
  end.
Definition closed (g : Group) : Prop := forall w part md h, Group_append g w part md <> Ok (h, APPENDED).
Lemma settle_idem : forall g, settle (settle g) = settle g.
Proof. intros []; try reflexivity; destruct g; reflexivity. Qed.
Lemma settle_closed : forall g g', settle g' = g' -> (match g with GVisibility _ | GCloud _ | GVicinity _ => True | _ => False end) -> Group_index g' = Group_index g -> closed g'.
Proof.
  intros g g' S K I w part md h A. destruct g; try contradiction; destruct g'; try discriminate I; cbn [settle] in S; apply appended_inv in A; destruct h; try contradiction; cbn [appended_as] in A.
  - injection S as S. unfold VisibilityGroup_append in A. rewrite <- S in A. cbn in A. discriminate A.
  - injection S as S. unfold CloudGroup_append in A. rewrite <- S in A. cbn in A. discriminate A.
  - injection S as S. unfold VicinityGroup_append in A. rewrite <- S in A. cbn in A. discriminate A.
Qed.
Lemma refused_settle : forall g s part md g', Reachable g -> Group_append g s part md = Ok (g', NOT_APPENDED) -> g' = settle g.
Proof.
  intros g s part md g' R A. apply appended_inv in A.
  destruct g, g'; try contradiction; cbn [appended_as] in A; cbn [settle].
  - (* keyword *) unfold KeywordGroup_append in A. congruence.
  - unfold LocationGroup_append in A. congruence.
  - unfold ReportTimeGroup_append in A. congruence.
  - apply trend_refused in A. congruence.
  - (* wind *) unfold WindGroup_append, Wind_appendVariableSector, Wind_appendWindShift, Wind_appendPeakWind in A. peel A; reflexivity.
  - (* visibility *) f_equal. unfold VisibilityGroup_append, try_append in A. cbv zeta in A. destruct (vi_inc g) eqn:I; peel A; try reflexivity. match goal with I : vi_inc ?x = _ |- _ => destruct x; cbn in I; subst; reflexivity end.
  - (* cloud *) pose proof (cloud_reach _ R) as F. unfold cloud_free in F. f_equal.
    unfold CloudGroup_append, Cloud_appendVariableCloudAmount, Cloud_appendCeiling, Cloud_appendRunwayOrCardinalDirection, Cloud_appendObscuration in A.
    destruct g as [tp am h mx cv rw dir ct inc]. cbn [cl_inc cl_rw cl_dir cl_tp cl_amnt cl_h cl_maxHt cl_conv cl_cldTp] in *.
    destruct inc; peel A; repeat match goal with H : _ /\ _ |- _ => destruct H end; subst; cbn; repeat split; auto.
    all: try (destruct (Direction_fromCardinalString s false false); [discriminate|reflexivity]).
  - unfold WeatherGroup_append in A. cbv zeta in A. peel A; reflexivity.
  - unfold TemperatureGroup_append in A. peel A; reflexivity.
  - unfold PressureGroup_append in A. peel A; reflexivity.
  - unfold RunwayStateGroup_append in A. peel A; reflexivity.
  - unfold SeaSurfaceGroup_append in A. peel A; reflexivity.
  - destruct (minmax_state _ R) as (p & ws & W). destruct (minmax_next p ws s md _ _ _ W A) as [[X _]|[_ ->]]; [discriminate X|reflexivity].
  - unfold PrecipitationGroup_append in A. peel A; reflexivity.
  - unfold LayerForecastGroup_append in A. peel A; reflexivity.
  - unfold PressureTendencyGroup_append in A. peel A; reflexivity.
  - unfold CloudTypesGroup_append in A. peel A; reflexivity.
  - unfold LowMidHighCloudGroup_append in A. peel A; reflexivity.
  - unfold LightningGroup_append in A. peel A; reflexivity.
  - f_equal. unfold VicinityGroup_append in A. cbv zeta in A. destruct (vc_inc g) eqn:I; peel A; try reflexivity. match goal with I : vc_inc ?x = _ |- _ => destruct x; cbn in I; subst; reflexivity end.
  - unfold MiscGroup_append in A. cbv zeta in A. peel A; reflexivity.
  - destruct g, g0; reflexivity.
Qed.
Lemma settle_index : forall g, Group_index (settle g) = Group_index g.
Proof. intros []; reflexivity. Qed.
Lemma settle_cases : forall g, settle g = g \/ closed (settle g).
Proof.
  intros g. destruct g; try (left; reflexivity); right; (eapply settle_closed; [apply settle_idem| |apply settle_index]; exact I).
Qed.
Definition refusable (g : Group) : Prop := exists s part md h, Group_append g s part md = Ok (h, NOT_APPENDED).
Definition ended (g0 g : Group) : Prop := g = g0 \/ g = settle g0 /\ refusable g0.
(** ** Groups are those which their words give *)
Lemma parsed_first : forall g w part md, parsed_as g w part md -> exists p, In p alternatives /\ p w part md = Ok (Some g).
Proof.
  assert (X : forall (A : Type) (mk : A -> Group) p s part md (k : A), In (alternative mk p) alternatives ->
    p s part md = Ok (Some k) -> exists q, In q alternatives /\ q s part md = Ok (Some (mk k))).
  { intros A mk p s part md k I E. exists (alternative mk p). split; [exact I|]. unfold alternative. rewrite E. reflexivity. }
  intros g s part md P; destruct g; cbn [parsed_as] in P; try contradiction; (eapply X; [|exact P]; cbn; tauto).
Qed.
Lemma grown_assembled : forall part now ws g, Grown part now ws g -> is_fallback g = false ->
  exists g0, Assembled part now ws g0 /\ Group_index g0 = Group_index g /\ ended g0 g.
Proof.
  intros part now ws g H; induction H as [w md g T G|w md g g' B IH T G|ws w md g g' B IH T A|ws w part' md g g' B IH A|ws]; intros F.
  - apply GroupParser_parse_inv in G. destruct G as [[-> |P] _]; [discriminate|]. apply parsed_first in P. destruct P as (p & I & P).
    exists g. split; [exact (Assembled_first part now w md p g T I P)|unfold ended; auto].
  - apply GroupParser_reparse_inv in G. destruct G as [-> |[P _]]; [discriminate|]. apply parsed_first in P. destruct P as (p & I & P).
    exists g'. split; [exact (Assembled_first part now w md p g' T I P)|unfold ended; auto].
  - pose proof (append_index _ _ _ _ _ _ A) as I. destruct IH as (g0 & As & J & E).
    { destruct g, g'; try reflexivity; discriminate. }
    destruct E as [-> |[-> _]].
    + exists g'. split; [exact (Assembled_more part now ws w md g0 g' As T A)|unfold ended; auto].
    + destruct (settle_cases g0) as [E|C]; [|destruct (C _ _ _ _ A)]. rewrite E in A.
      exists g'. split; [exact (Assembled_more part now ws w md g0 g' As T A)|unfold ended; auto].
  - pose proof (append_index _ _ _ _ _ _ A) as I. destruct IH as (g0 & As & J & E).
    { destruct g, g'; try reflexivity; discriminate. }
    exists g0. split; [exact As|]. split; [congruence|]. right.
    assert (R : Reachable g) by (eapply built_reach, grown_built; exact B).
    rewrite (refused_settle _ _ _ _ _ R A). destruct E as [-> |[-> Rf]]; (split; [|first [exact Rf|unfold refusable; eauto]]); [reflexivity|apply settle_idem].
  - discriminate F.
Qed.
Lemma continued_same : forall part now g ws g1, Continued part now g ws g1 -> forall g2, Continued part now g ws g2 -> g1 = g2.
Proof.
  intros part now g ws g1 H; induction H as [g|g w md g1 ws g2 T A C IH]; intros h X; inversion X as [|? ? md' h1 ? ? T' A' C' E1 E2]; subst; [reflexivity|].
  apply IH. rewrite (append_time g w part md' md) in A' by congruence. rewrite A in A'. injection A' as <-. exact C'.
Qed.
Lemma assembled_same : forall part now ws g h, Assembled part now ws g -> Assembled part now ws h ->
  g = h \/ shared part (hd "" ws) /\ (Group_index g = 6%nat /\ Group_index h = 19%nat \/ Group_index g = 19%nat /\ Group_index h = 6%nat).
Proof.
  intros part now ws g h G H. apply assembled_split in G. apply assembled_split in H.
  destruct G as (w & ws' & p & md & g0 & -> & Ip & T & P & C). destruct H as (w' & us & q & md' & h0 & E & Iq & T' & Q & D). injection E as <- <-.
  rewrite (parse_time q w part md' md Iq) in Q by congruence.
  destruct (parsed_two _ _ _ _ _ (parsed_inv _ _ _ _ _ Ip P) (parsed_inv _ _ _ _ _ Iq Q)) as [->|[S K]].
  - left. exact (continued_same _ _ _ _ _ C _ D).
  - right. split; [exact S|]. rewrite (continued_index _ _ _ _ _ C), (continued_index _ _ _ _ _ D). exact K.
Qed.
(** FG and the like: clouds or phenomena in the vicinity, by the word after it *)
Lemma lang_len : forall x, Lang rgx_obscuration x -> slen x = 6%nat.
Proof.
  intros x L. pose proof (lang_minlen _ _ L) as M. pose proof (lang_maxlen _ _ L 6 eq_refl) as N. cbn in M. lia.
Qed.
Lemma layer_not_nearby : forall x m v h part md, regex_match rgx_obscuration x = Some m -> vc_inc v = VcI_EXPECT_DIST_DIR1 ->
  VicinityGroup_append v x part md = Ok (h, APPENDED) -> False.
Proof.
  intros x m v h part md R I A. apply match_lang in R.
  unfold VicinityGroup_append in A. rewrite I in A. cbv zeta in A. unfold Vicinity_appendDistance, Vicinity_appendDir1 in A.
  assert (L : slen x = 6%nat) by (apply lang_len; exact R).
  assert (N : forall t, slen t <> 6%nat -> seqb x t = false).
  { intros t H. destruct (seqb x t) eqn:E; [|reflexivity]. apply seqb_eq in E. congruence. }
  rewrite (N "DSNT"), (N "VC") in A by discriminate. unfold Distance_fromKmString in A. rewrite L in A. cbn [Nat.eqb negb andb bind] in A.
  destruct (Direction_fromCardinalString x true false) as [d|] eqn:C.
  - unfold Direction_fromCardinalString in C. destruct (sempty x); [discriminate C|].
    repeat rewrite N in C by discriminate. rewrite ?andb_false_r in C. discriminate C.
  - unfold Direction_fromSectorString in A. destruct (regex_match rgx_sector x) eqn:M; [|discriminate A]. apply match_lang in M.
    refine (apart_sound _ _ _ _ R M). vm_compute. reflexivity.
Qed.
Lemma two_kinds : forall part now ws c v, Assembled part now ws (GCloud c) -> Assembled part now ws (GVicinity v) -> shared part (hd "" ws) -> exists w, ws = [w] /\ cl_inc c = ClI_OBSCURATION.
Proof.
  intros part now ws c v C V S. pose proof C as C0. apply assembled_split in C. apply assembled_split in V.
  destruct C as (w & ws' & p & md & g0 & -> & Ip & T & P & C). destruct V as (w' & us & q & md' & h0 & E & Iq & T' & Q & D). injection E as <- <-.
  cbn [hd] in S. destruct ws' as [|x ws].
  - exists w. split; [reflexivity|]. exact (shared_cloud _ _ _ _ S C0).
  - exfalso. pose proof (continued_index _ _ _ _ _ C) as I. pose proof (continued_index _ _ _ _ _ D) as J.
    destruct g0 as [| | | | | |c0| | | | | | | | | | | | | | |]; try discriminate I. destruct h0 as [| | | | | | | | | | | | | | | | | | |v0| |]; try discriminate J.
    pose proof (shared_cloud _ _ _ _ S (Assembled_first part now w md p _ T Ip P)) as O.
    inversion C as [|? ? md1 c1 ? ? T1 A1 C1 E1 E2]; subst. inversion D as [|? ? md2 v1 ? ? T2 A2 D1 E1 E2]; subst.
    apply appended_inv in A1. apply appended_inv in A2. destruct c1; try contradiction. destruct v1; try contradiction. cbn [appended_as] in A1, A2.
    unfold CloudGroup_append in A1. rewrite O in A1. unfold Cloud_appendObscuration in A1. destruct (regex_match rgx_obscuration x) as [m|] eqn:R; [|discriminate A1].
    apply (layer_not_nearby x m v0 _ _ _ R) in A2; [exact A2|].
    apply parsed_inv in Q; [|exact Iq]. cbn [parsed_as] in Q. destruct S as [-> S]. cbn in S.
    repeat (destruct S as [<-|S]; [vm_compute in Q; injection Q as <-; reflexivity|]). destruct S.
Qed.

(** ** The header *)
Lemma header_parse : forall p s md md', In p alternatives -> p s RP_HEADER md = p s RP_HEADER md'.
Proof.
  intros p s md md' I. unfold alternatives in I. cbn [In] in I.
  repeat (destruct I as [<-|I]; [reflexivity|]). destruct I.
Qed.
Lemma header_append : forall g s part md md', Group_index g <> 4%nat -> Group_append g s part md = Group_append g s part md'.
Proof. intros [] s part md md' A; try reflexivity. destruct (A eq_refl). Qed.
Lemma header_index : forall w md g, parsed_as g w RP_HEADER md -> Group_index g <> 4%nat.
Proof. intros w md g P. pose proof (header_passive w RP_HEADER md g (or_introl eq_refl) P) as A. destruct g; discriminate. Qed.
Lemma header_first : forall now w md g, parsed_as g w RP_HEADER md -> Assembled RP_HEADER now [w] g.
Proof.
  intros now w md g P. apply parsed_first in P. destruct P as (p & I & P). rewrite (header_parse p w md (md_at now) I) in P.
  exact (Assembled_first RP_HEADER now w (md_at now) p g eq_refl I P).
Qed.
Lemma header_assembled : forall now ws g, Built RP_HEADER ws g -> is_fallback g = false ->
  exists g0, Assembled RP_HEADER now ws g0 /\ Group_index g0 = Group_index g /\ ended g0 g /\ Group_index g0 <> 4%nat.
Proof.
  intros now ws g H; induction H as [w md g G|w md g g' B IH G|ws w md g g' B IH A|ws w part' md g g' B IH A|ws]; intros F.
  - apply GroupParser_parse_inv in G. destruct G as [[-> |P] _]; [discriminate|].
    exists g. split; [exact (header_first _ _ _ _ P)|]. split; [reflexivity|split; [left; reflexivity|]]. exact (header_index _ _ _ P).
  - apply GroupParser_reparse_inv in G. destruct G as [-> |[P _]]; [discriminate|].
    exists g'. split; [exact (header_first _ _ _ _ P)|]. split; [reflexivity|split; [left; reflexivity|]]. exact (header_index _ _ _ P).
  - pose proof (append_index _ _ _ _ _ _ A) as I. destruct IH as (g0 & As & J & E & N).
    { destruct g, g'; try reflexivity; discriminate. }
    assert (A0 : Group_append g0 w RP_HEADER (md_at now) = Ok (g', APPENDED)).
    { rewrite (header_append _ _ _ _ md N). destruct E as [-> |[-> _]]; [exact A|].
      destruct (settle_cases g0) as [E|C]; [|destruct (C _ _ _ _ A)]. rewrite E in A. exact A. }
    exists g'. split; [exact (Assembled_more RP_HEADER now ws w (md_at now) g0 g' As eq_refl A0)|]. split; [reflexivity|split; [left; reflexivity|]]. congruence.
  - pose proof (append_index _ _ _ _ _ _ A) as I. destruct IH as (g0 & As & J & E & N).
    { destruct g, g'; try reflexivity; discriminate. }
    exists g0. split; [exact As|]. split; [congruence|]. split; [right|exact N].
    rewrite (refused_settle _ _ _ _ _ (built_reach _ _ _ B) A). destruct E as [-> |[-> Rf]]; (split; [|first [exact Rf|unfold refusable; eauto]]); [reflexivity|apply settle_idem].
  - discriminate F.
Qed.
(** ** Groups of the results *)
Lemma result_assembled : forall sgn report limit r, parse sgn report limit = Ok r ->
  forall g part raw, In (mkGroupInfo g part raw) (pr_groups r) -> raw <> "" -> is_fallback g = false ->
  exists g0, Assembled part (md_reportTime (pr_metadata r)) (words_of raw) g0 /\ Group_index g0 = Group_index g /\ settle g0 = g /\ (g0 = g \/ refusable g0).
Proof.
  intros sgn report limit r P g part raw I N F.
  assert (X : exists g0, Assembled part (md_reportTime (pr_metadata r)) (words_of raw) g0 /\ Group_index g0 = Group_index g /\ ended g0 g).
  { destruct (ReportPart_eq_dec part RP_HEADER) as [-> |H].
    - destruct (header_assembled (md_reportTime (pr_metadata r)) _ _ (built_from_words _ _ _ _ P _ _ _ I N) F) as (g0 & A & B & C & _). eauto.
    - exact (grown_assembled _ _ _ _ (result_grown _ _ _ _ P _ _ _ I N H) F). }
  destruct X as (g0 & A & J & E). exists g0. split; [exact A|]. split; [exact J|].
  assert (S : settle g = g); [|destruct E as [E|[E Rf]]; [subst; auto|auto]].
  pose proof (proj1 (Forall_forall _ _) (result_settled _ _ _ _ P) _ I) as S.
  destruct S as [S|[S|(h & s & p & md & R & Ap)]]; cbn [gi_rawString gi_group] in *; [contradiction|rewrite S in F; discriminate F|].
  rewrite (refused_settle _ _ _ _ _ R Ap). apply settle_idem.
Qed.
Lemma not_obscured : forall c g, settle (GCloud c) = g -> (GCloud c = g \/ refusable (GCloud c)) -> cl_inc c = ClI_OBSCURATION -> False.
Proof.
  intros c g E R O. destruct R as [R|(s & part & md & h & A)].
  - rewrite <- R in E. cbn [settle] in E. injection E as E. rewrite <- E in O. discriminate O.
  - apply appended_inv in A. destruct h; try contradiction. cbn [appended_as] in A. unfold CloudGroup_append in A. rewrite O in A. unfold Cloud_appendObscuration in A.
    destruct (regex_match rgx_obscuration s) as [m|]; [|discriminate A]. apply bind_ok in A. destruct A as ([d|] & _ & A); [|discriminate A].
    destruct (Cloud_amountFromString (mstr m 1)); discriminate A.
Qed.
Theorem same_words : forall sgn report limit r sgn' report' limit' r', parse sgn report limit = Ok r -> parse sgn' report' limit' = Ok r' ->
  md_reportTime (pr_metadata r) = md_reportTime (pr_metadata r') ->
  forall g g' part raw, In (mkGroupInfo g part raw) (pr_groups r) -> In (mkGroupInfo g' part raw) (pr_groups r') -> raw <> "" ->
  is_fallback g = false -> is_fallback g' = false -> g = g'.
Proof.
  intros sgn report limit r sgn' report' limit' r' P P' T g g' part raw I I' N F F'.
  destruct (result_assembled _ _ _ _ P _ _ _ I N F) as (g0 & A & J & E & R). destruct (result_assembled _ _ _ _ P' _ _ _ I' N F') as (h0 & B & K & E' & R').
  rewrite <- T in B. destruct (assembled_same _ _ _ _ _ A B) as [->|[S [[X Y]|[X Y]]]]; [congruence|exfalso..].
  - destruct g0; try discriminate X. destruct h0; try discriminate Y. destruct (two_kinds _ _ _ _ _ A B S) as (w & W & O). exact (not_obscured _ _ E R O).
  - destruct g0; try discriminate X. destruct h0; try discriminate Y. destruct (two_kinds _ _ _ _ _ B A S) as (w & W & O). exact (not_obscured _ _ E' R' O).
Qed.
