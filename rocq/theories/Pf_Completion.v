(** C60: every group put together from words so far can be completed. *)
From Coq Require Import Lia.
From Verif Require Import Prim Lib Regex Float Values Weather Groups1 Groups2 Groups3 Groups4 Parser SpecReach SpecAssembled SpecSaid.
From Verif Require Import Pf_Ok Pf_Caps Pf_Kinds Pf_Total Pf_EndAppend Pf_Sentence Pf_Assembled Pf_Division Pf_Ends.
From Verif Require Pf_RunwayRange SpecMiles SpecVisibility Pf_Visibility SpecClouds Pf_Clouds.
Import SpecVisibility(may_end).
Local Open Scope string_scope.

Definition completable (part : ReportPart) (now : option MetafTime) (g : Group) : Prop :=
  exists more g', Continued part now g more g' /\ may_end part g'.
Lemma complete_one : forall part now g w g' v, Group_append g w part (md_at now) = Ok (g', APPENDED) -> (exists h, Group_append g' v part (md_at now) = Ok (h, NOT_APPENDED)) ->
  completable part now g.
Proof.
  intros part now g w g' v E (h & N). exists [w], g'. split; [|exists v, (md_at now), h; exact N]. eapply Continued_word; [|exact E|apply Continued_end]. reflexivity.
Qed.
Lemma complete_more : forall part now g w g', Group_append g w part (md_at now) = Ok (g', APPENDED) -> completable part now g' -> completable part now g.
Proof. intros part now g w g' E (more & h & C & M). exists (w :: more), h. split; [|exact M]. eapply Continued_word; [|exact E|exact C]. reflexivity. Qed.
Lemma completable_ends : forall part now g, may_end part g -> completable part now g.
Proof. intros part now g M. exists [], g. split; [apply Continued_end|exact M]. Qed.
Lemma completes_as : forall part now ws g, Assembled part now ws g -> completable part now g -> exists more g', Assembled part now (ws ++ more) g' /\ Group_index g' = Group_index g /\ may_end part g'.
Proof.
  intros part now ws g A (more & g' & C & M). exists more, g'. split; [|split; [exact (continued_index _ _ _ _ _ C)|exact M]].
  revert ws A. induction C as [g|g w md g1 more g' T E C IH]; intros ws A; [rewrite app_nil_r; exact A|].
  specialize (IH M (ws ++ [w])%list (Assembled_more _ _ _ _ _ _ _ A T E)). rewrite <- app_assoc in IH. exact IH.
Qed.
Ltac via w := eapply (complete_more _ _ _ w); [vm_compute; reflexivity|].
Ltac ends := apply completable_ends; exists "", md_default; eexists; vm_compute; reflexivity.
Lemma wind_completes : forall part now g, completable part now (GWind g).
Proof.
  intros part now [ty dir sp gu he vb ve ev rw inc]. destruct inc.
  - destruct ty; try ends. destruct ev; ends.
  - destruct now; via "WND"; via "36050/1200"; ends.
  - destruct now; via "36050/1200"; ends.
  - via "MISG". destruct ty; try ends. destruct ev; ends.
  - via "R01". destruct ty; try ends. destruct ev; ends.
  - via "RWY". destruct ty; try ends. destruct ev; ends.
Qed.
Lemma cloud_completes : forall part now ws g, Pf_Clouds.State part ws g -> Overcast part 6 ws \/ completable part now (GCloud g).
Proof.
  intros part now ws g H. destruct H as [ws g H E| | | |h d P H|a b low high P A B|w t P I|w a k h d P I L|w a k h d P I L].
  - right. destruct g. cbn in E. subst. ends.
  - right. via "MISG". ends.
  - right. via "010". ends.
  - right. ends.
  - right. ends.
  - right. ends.
  - right. via "BKN010". ends.
  - cbn [SpecClouds.amounts In] in I. destruct I as [I|[I|[I|[I|[]]]]]; injection I as <- <- <-.
    + right. via "V". via "SCT". ends.
    + right. via "V". via "BKN". ends.
    + right. via "V". via "OVC". ends.
    + left. split; [exact P|split; [reflexivity|]]. exists h. split; [|left; reflexivity]. destruct L as [[[[-> ?]|(v & N & _)] Nh]|[-> _]]; [congruence|right; exists v; exact N|left; reflexivity].
  - cbn [SpecClouds.amounts In] in I. destruct I as [I|[I|[I|[I|[]]]]]; injection I as <- <- <-.
    + right. via "SCT". ends.
    + right. via "BKN". ends.
    + right. via "OVC". ends.
    + left. split; [exact P|split; [reflexivity|]]. exists h. split; [|right; reflexivity]. destruct L as [[[[-> ?]|(v & N & _)] Nh]|[-> _]]; [congruence|right; exists v; exact N|left; reflexivity].
Qed.
Lemma weather_completes : forall part now g, completable part now (GWeather g).
Proof.
  intros part now [t l inc]. destruct inc; try (destruct t, part; ends).
  - via "MISG". destruct t, part; ends.
  - via "TEMPO". via "UNAVBL". destruct t, part; ends.
  - via "UNAVBL". destruct t, part; ends.
Qed.
Lemma misg_completes : forall part now,
  (forall g, completable part now (GTemperature g)) /\ (forall g, completable part now (GPressure g)).
Proof.
  intros part now. split.
  - intros [tp t d [|]]; destruct tp; try ends; via "MISG"; ends.
  - intros [tp p [|]]; destruct tp; try ends; via "MISG"; ends.
Qed.
Lemma lightning_completes : forall part now g, Reachable (GLightning g) -> completable part now (GLightning g).
Proof.
  intros part now g R. destruct (lt_incomplete g) eqn:E.
  - destruct g. cbn in E. subst. via "LTG". apply completable_ends. exists "", md_default. eexists. vm_compute. reflexivity.
  - apply completable_ends, settled_ends; [exact R|reflexivity|]. intros w md g' H. apply appended_inv in H. destruct g'; try contradiction. cbn [appended_as] in H. unfold LightningGroup_append in H. rewrite E in H. outcome H.
Qed.
Lemma vicinity_completes : forall part now g, Reachable (GVicinity g) -> completable part now (GVicinity g).
Proof.
  intros part now g R. assert (D : vc_inc g = VcI_EXPECT_CLD \/ vc_inc g = VcI_EXPECT_DIST_DIR1 \/ vc_inc g = VcI_EXPECT_DIR2 \/ vc_inc g = VcI_EXPECT_MOVDIR \/ settled part (GVicinity g)).
  { destruct (vc_inc g) eqn:E; auto; right; right; right; right; intros w md g' H; apply appended_inv in H; destruct g'; try contradiction; cbn [appended_as] in H; unfold VicinityGroup_append in H; rewrite E in H; cbv zeta in H; outcome H. }
  destruct D as [E|[E|[E|[E|S]]]]; [destruct g; cbn in E; subst..|apply completable_ends, settled_ends; [exact R|reflexivity|exact S]].
  - via "CLD". via "DSNT". ends.
  - via "DSNT". ends.
  - via "N". ends.
  - via "N". ends.
Qed.
Lemma misc_completes : forall part now g, completable part now (GMisc g).
Proof.
  intros part now [ty d inc]. destruct inc; try ends.
  - via "ALT". via "MISG". ends.
  - via "MISG". ends.
  - eapply (complete_more _ _ _ "1/4"); [reflexivity|]. apply completable_ends. exists "", md_default. eexists. reflexivity.
  - eapply (complete_more _ _ _ "1/4"); [reflexivity|]. apply completable_ends. exists "", md_default. eexists. reflexivity.
Qed.
Lemma visibility_completes : forall part now ws g, Assembled part now ws (GVisibility g) -> exists more g', Assembled part now (ws ++ more) g' /\ Group_index g' = 5%nat /\ may_end part g'.
Proof.
  intros part now ws g A. pose proof (Pf_Visibility.assembled_vis _ _ _ _ A) as St.
  assert (C : completable part now (GVisibility g) -> exists more g', Assembled part now (ws ++ more) g' /\ Group_index g' = 5%nat /\ may_end part g').
  { intros C. destruct (completes_as _ _ _ _ A C) as (more & g' & A' & I & M). exists more, g'. auto. }
  destruct (Pf_Visibility.completed (vi_inc g)) eqn:Ec.
  { apply C. destruct g as [ty vi mx tr di rw sf st inc]. destruct inc; try discriminate Ec; ends. }
  destruct St as [ws v H|w a P W D|P|w a P W|ws d P H|before a b low high P L W|ws low high P H|w p P H|w p x d P H W|w p before a b low high P H L W|w t P I|w t P I|w t x d P I W|P|P]; try discriminate Ec.
  - destruct W as (prefix & m & n & v & -> & Im & N & ->). cbn [distModifier] in D. subst m.
    exists ["1/2SM"], (GVisibility (Pf_RunwayRange.of_sight (SpecVisibility.seen SpecVisibility.Around (mkDist DM_NONE (Some (10000 * v + 5000)%N) STATUTE_MILES)) ViI_NONE)).
    split; [|split; [reflexivity|apply Pf_Visibility.completed_may_end; reflexivity]].
    apply (Pf_Visibility.mk_two_words part now (prefix ++ n) "1/2SM" (mkDist DM_NONE (Some (10000 * v)%N) STATUTE_MILES) (mkDist DM_NONE (Some 5000%N) STATUTE_MILES)).
    + exact P.
    + exists prefix, DM_NONE, n, v. auto.
    + reflexivity.
    + exists "", DM_NONE, "1/2", 0%N, 1%N, 2%N, 5000%N. split; [reflexivity|]. split; [left; reflexivity|]. split; [|split; [reflexivity|lia]].
      apply (SpecMiles.Miles_fraction "1" "2" 1%N 2%N); [left; split; reflexivity|left; split; reflexivity|lia|lia|left; lia].
    + exists DM_NONE, (10000 * v)%N, 5000%N. split; [reflexivity|]. split; [reflexivity|]. split; [rewrite N.mul_comm; apply N.mod_mul; discriminate|]. split; [discriminate|reflexivity].
  - apply C. via "MISG". ends.
  - apply C. via "R01". ends.
  - apply C. via "R01". ends.
  - apply C. destruct H; via "1"; ends.
  - apply C. cbn [In] in I. destruct I as [I|[I|[]]]; injection I as <- <-; via "VIS"; via "1"; ends.
  - apply C. cbn [In] in I. destruct I as [I|[I|[]]]; injection I as <- <-; via "1"; ends.
  - apply C. via "MISG". ends.
Qed.
Lemma precipitation_completes : forall part now g, completable part now (GPrecipitation g) \/ settled part (GPrecipitation g).
Proof.
  intros part now [ty a c i]. destruct (PcType_beq ty Pc_PCPN_MISG || PcType_beq ty Pc_ICG_MISG) eqn:E; [left|right].
  - destruct ty; try discriminate E; (destruct i; [via "MISG"; ends|ends]).
  - intros w md g' H. apply appended_inv in H. destruct g'; try contradiction. cbn [appended_as] in H. unfold PrecipitationGroup_append in H. cbn [pc_type] in H. rewrite E in H. outcome H.
Qed.
Theorem assembled_completes : forall part now ws g, Assembled part now ws g ->
  Overcast part (Group_index g) ws \/ exists more g', Assembled part now (ws ++ more) g' /\ Group_index g' = Group_index g /\ may_end part g'.
Proof.
  intros part now ws g A. destruct (assembled_known _ _ _ _ A) as [F R].
  assert (C : completable part now g -> Overcast part (Group_index g) ws \/ exists more g', Assembled part now (ws ++ more) g' /\ Group_index g' = Group_index g /\ may_end part g').
  { intros C. right. exact (completes_as _ _ _ _ A C). }
  assert (S : settled part g -> Overcast part (Group_index g) ws \/ exists more g', Assembled part now (ws ++ more) g' /\ Group_index g' = Group_index g /\ may_end part g').
  { intros S. apply C, completable_ends, settled_ends; assumption. }
  destruct g.
  - apply S. intros w md g' H. apply appended_inv in H. destruct g'; try contradiction. discriminate H.
  - apply S. intros w md g' H. apply appended_inv in H. destruct g'; try contradiction. discriminate H.
  - apply S. intros w md g' H. apply appended_inv in H. destruct g'; try contradiction. discriminate H.
  - apply S. intros w md g' H. apply appended_inv in H. destruct g'; try contradiction. cbn [appended_as] in H. unfold TrendGroup_append in H. outcome H.
  - apply C, wind_completes.
  - right. exact (visibility_completes _ _ _ _ A).
  - destruct (cloud_completes part now ws g) as [O|C']; [|left; exact O|exact (C C')]. exact (Pf_Clouds.assembled_cloud _ _ _ _ A).
  - apply C, weather_completes.
  - apply C, (proj1 (misg_completes part now)).
  - apply C, (proj2 (misg_completes part now)).
  - apply S. intros w md g' H. apply appended_inv in H. destruct g'; try contradiction. discriminate H.
  - apply S. intros w md g' H. apply appended_inv in H. destruct g'; try contradiction. discriminate H.
  - apply S. intros w md g' H. apply appended_inv in H. destruct g'; try contradiction. cbn [appended_as] in H. unfold MinMaxTemperatureGroup_append, MinMax_append6hourly, MinMax_appendForecast in H. cbv zeta in H. outcome H.
  - destruct (precipitation_completes part now g) as [X|X]; auto.
  - apply S. intros w md g' H. apply appended_inv in H. destruct g'; try contradiction. discriminate H.
  - apply S. intros w md g' H. apply appended_inv in H. destruct g'; try contradiction. discriminate H.
  - apply S. intros w md g' H. apply appended_inv in H. destruct g'; try contradiction. cbn [appended_as] in H. unfold CloudTypesGroup_append in H. cbv zeta in H. outcome H.
  - apply S. intros w md g' H. apply appended_inv in H. destruct g'; try contradiction. discriminate H.
  - apply C, lightning_completes, R.
  - apply C, vicinity_completes, R.
  - apply C, misc_completes.
  - discriminate F.
Qed.
