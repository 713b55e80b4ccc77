(** C60: reading the longest text of a group. *)
From Coq Require Import Lia.
From Verif Require Import Prim Lib Regex Float Values Weather Groups1 Groups2 Groups3 Groups4 Parser SpecReach SpecAssembled SpecOpenings SpecSentence SpecSaid SpecLongest.
From Verif Require Import Pf_Ok Pf_Caps Pf_Kinds Pf_Total Pf_EndAppend Pf_Sentence Pf_Assembled Pf_TimeOnly Pf_OneKind Pf_Division Pf_Ends Pf_Completion Pf_Said.
From Verif Require SpecVisibility SpecClouds SpecAppend Pf_VisTexts Pf_Visibility Pf_Clouds Pf_Same Pf_RunwayRange.
Import SpecVisibility(may_end).
Local Open Scope string_scope.

(** The same words give the same group of a kind. *)
Lemma assembled_same : forall part now ws g, Assembled part now ws g -> forall h, Assembled part now ws h -> Group_index g = Group_index h -> g = h.
Proof.
  induction 1 as [w md p g T I E|ws w md g g' A IH T E]; intros h H X.
  - inversion H as [w' md' p' h' T' I' E'|ws' w' md' h0 h' A' T' E']; subst.
    + apply parsed_inv in E; [|exact I]. rewrite (parse_time p' w part md' md) in E' by congruence. apply parsed_inv in E'; [|exact I']. exact (same_kind _ _ _ _ _ E E' X).
    + destruct ws' as [|? [|]]; try discriminate. inversion A'; destruct words; discriminate.
  - inversion H as [w' md' p' h' T' I' E' Y|ws' w' md' h0 h' A' T' E' Y]; subst.
    + destruct ws as [|? [|]]; try discriminate. inversion A; destruct words; discriminate.
    + apply app_inj_tail in Y. destruct Y as [-> ->]. assert (Z : g = h0).
      { apply IH; [exact A'|]. rewrite <- (append_index _ _ _ _ _ _ E), <- (append_index _ _ _ _ _ _ E'). exact X. }
      subst h0. rewrite (append_time g w part md' md) in E' by congruence. rewrite E in E'. injection E' as <-. reflexivity.
Qed.
Lemma assembled_nonempty : forall part now ws g, Assembled part now ws g -> ws <> [].
Proof. intros part now ws g [w|ws' w]; [discriminate|]. intros X. destruct ws'; discriminate X. Qed.
Lemma assembled_prefix : forall part now vs us g, us <> [] -> Assembled part now (us ++ vs) g -> exists h, Assembled part now us h /\ Group_index h = Group_index g.
Proof.
  intros part now. induction vs as [|v vs IH] using rev_ind; intros us g N A.
  - rewrite app_nil_r in A. eauto.
  - rewrite app_assoc in A. inversion A as [w' md' p' h' T' I' E' Y|ws' w' md' h0 h' A' T' E' Y]; subst.
    + destruct us; [contradiction|]. destruct us; destruct vs; discriminate.
    + apply app_inj_tail in Y. destruct Y as [-> ->]. destruct (IH us h0 N A') as (h & H & X). exists h. split; [exact H|]. rewrite X. symmetry. exact (append_index _ _ _ _ _ _ E').
Qed.
Lemma overcast_read : forall part now kind ws, Overcast part kind ws -> exists g, Group_index g = kind /\ Assembled part now ws g.
Proof.
  intros part now kind ws (-> & -> & h & Hh & H).
  assert (L : exists d, Pf_Clouds.layer_height h d).
  { destruct Hh as [->|(v & N)]; [eexists; right; split; reflexivity|]. eexists. left. split; [right; exists v; split; [exact N|reflexivity]|]. intros ->. destruct N as [_ N]. vm_compute in N. discriminate N. }
  destruct L as (d & L). assert (I : In ("OVC", (Am_OVERCAST, 8%N)) SpecClouds.amounts) by (cbn; tauto).
  pose proof (Pf_Clouds.mk_amount now "OVC" _ _ h d I L) as M. destruct H as [-> | ->].
  - eexists. split; [|exact M]. reflexivity.
  - eexists. split; [|refine (Pf_Clouds.made_more RP_RMK now ["OVC" ++ h] "V" _ _ M _); reflexivity]. reflexivity.
Qed.
(** Words are the beginning of a group exactly if one was put together from them. *)
Theorem opens_iff : forall part now kind ws, in_report part -> (Opens part now kind ws <-> exists g, Group_index g = kind /\ Assembled part now ws g).
Proof.
  intros part now kind ws P. split.
  - intros [(N & more & g & I & H)|O].
    + destruct (said_assembled _ _ _ _ H) as (g' & A & _ & I'). destruct (assembled_prefix _ _ _ _ _ N A) as (h & B & J). exists h. split; [congruence|exact B].
    + exact (overcast_read _ _ _ _ O).
  - intros (g & <- & A). destruct (assembled_completes _ _ _ _ A) as [O|(more & g' & B & I & M)]; [right; exact O|left].
    split; [exact (assembled_nonempty _ _ _ _ A)|]. exists more, g'. split; [exact I|]. apply assembled_said; assumption.
Qed.
Theorem continues_iff : forall part now ws g next, in_report part -> Assembled part now ws g ->
  (Continues part now (Group_index g) ws next <-> exists g', Group_append g next part (md_at now) = Ok (g', APPENDED)).
Proof.
  intros part now ws g next P A. unfold Continues. rewrite (opens_iff _ _ _ _ P). split.
  - intros (h & I & H). inversion H as [w' md' p' h' T' I' E' Y|ws' w' md' h0 h' A' T' E' Y]; subst.
    + exfalso. apply (assembled_nonempty _ _ _ _ A). destruct ws as [|? [|]]; [reflexivity|discriminate|discriminate].
    + apply app_inj_tail in Y. destruct Y as [-> ->]. assert (Z : g = h0).
      { apply (assembled_same _ _ _ _ A _ A'). rewrite <- I. exact (append_index _ _ _ _ _ _ E'). }
      subst h0. exists h. rewrite (append_time g next part (md_at (md_reportTime md')) md') by reflexivity. exact E'.
  - intros (g' & E). exists g'. split; [exact (append_index _ _ _ _ _ _ E)|]. eapply (Assembled_more part now ws next (md_at now)); [exact A|reflexivity|exact E].
Qed.

Lemma text_iff : forall part now ws g, in_report part -> Assembled part now ws g -> (Text part now (Group_index g) ws <-> may_end part g).
Proof.
  intros part now ws g P A. split.
  - intros (h & I & H). destruct (said_assembled _ _ _ _ H) as (g' & B & M & J). rewrite (assembled_same _ _ _ _ A _ B) by congruence. exact M.
  - intros M. exists g. split; [reflexivity|]. apply assembled_said; assumption.
Qed.
Lemma refused_end : forall part now g next g', refuses part now g next g' -> may_end part g.
Proof. intros part now g next g' H. exists next, (md_at now), g'. exact (H (md_at now) eq_refl). Qed.
Lemma range_spoils : forall part now ws g next g', Assembled part now ws g -> Wrong_range part ws next -> ~ refuses part now g next g'.
Proof.
  intros part now ws g next g' A (-> & w & x & a & b & low & high & I & -> & -> & L & H) R.
  assert (T : exists t, In (w, t) [("SFC", Vi_SURFACE); ("TWR", Vi_TOWER)]) by (destruct I as [<-|[<-|[]]]; eexists; cbn; eauto). destruct T as (t & T).
  inversion L as [|w' x' d e low' W M Ad]; subst. inversion H as [b' high' B|]; subst.
  pose proof (Pf_Visibility.mk_observer_integer now w t x d T W) as V. unfold Pf_Visibility.Made in V.
  assert (K : Group_index g = 5%nat).
  { destruct (assembled_prefix _ _ ["VIS"; x] [w] g ltac:(discriminate) A) as (h & Ah & <-). destruct (assembled_prefix _ _ ["VIS"; x] [w] _ ltac:(discriminate) V) as (k & Ak & Ik). change 5%nat with (Group_index (GVisibility (Pf_RunwayRange.of_sight (SpecVisibility.told t SpecVisibility.Around d) ViI_SFC_OR_TWR_VIS_INTEGER))).
    rewrite <- Ik. f_equal. inversion Ah as [w1 m1 p1 h1 T1 I1 E1|ws' w1 m1 h0 h1 A1 T1 E1 Y1]; subst; [|exfalso; apply (assembled_nonempty _ _ _ _ A1); destruct ws' as [|? [|]]; [reflexivity|discriminate|discriminate]].
    inversion Ak as [w2 m2 p2 h2 T2 I2 E2|ws' w2 m2 h0 h2 A2 T2 E2 Y2]; subst; [|exfalso; apply (assembled_nonempty _ _ _ _ A2); destruct ws' as [|? [|]]; [reflexivity|discriminate|discriminate]].
    rewrite (parse_time p2 w RP_RMK m2 m1 I2) in E2 by congruence. refine (one_kind p1 p2 w RP_RMK m1 h k I1 I2 E1 E2 _).
    intros [_ Sh]. cbn in Sh, I. destruct I as [<-|[<-|[]]]; repeat (destruct Sh as [Sh|Sh]; [discriminate Sh|]); destruct Sh. }
  pose proof (assembled_same _ _ _ _ A _ V K) as G. subst g. specialize (R (md_at now) eq_refl). apply appended_inv in R. destruct g'; try contradiction. cbn [appended_as] in R.
  unfold VisibilityGroup_append in R. cbn [Pf_RunwayRange.of_sight vi_inc] in R. cbv zeta in R.
  apply Pf_Visibility.try_some in R. destruct R as [[_ R]|[_ R]]; [discriminate R|].
  rewrite (Pf_Visibility.do_variable_add x d a b e low high) in R; [|exact W|exact M|exact Ad|exact B|destruct T as [T|[T|[]]]; injection T as <- <-; reflexivity]. discriminate R.
Qed.
Lemma spoils_why : forall part now ws g next, in_report part -> Assembled part now ws g -> spoils part now g next -> ~ may_end part g \/ Wrong_range part ws next.
Proof.
  intros part now ws g next P A Sp.
  assert (D : (forall v, g <> GVisibility v) -> ~ may_end part g).
  { intros N M. destruct (Sp (md_at now) eq_refl) as (g' & E). exact (ends_settled _ _ N M _ _ _ E). }
  destruct g; try (left; apply D; discriminate).
  clear D. destruct (Pf_Visibility.completed (vi_inc g)) eqn:C.
  - right. destruct (Sp (md_at now) eq_refl) as (g' & E). apply appended_inv in E. destruct g'; try contradiction. cbn [appended_as] in E. apply Pf_Visibility.assembled_vis in A.
    assert (Z : vi_inc g = ViI_SFC_OR_TWR_VIS_INTEGER /\ exists k, Vis_appendVariable g next ViI_NONE ViI_NONE = Ok (Some k)).
    { unfold VisibilityGroup_append in E. cbv zeta in E. destruct (vi_inc g); try discriminate C; try discriminate E;
        repeat (match type of E with try_append _ _ = _ => apply Pf_Visibility.try_some in E; destruct E as [[_ E]|[_ E]]; [discriminate E|] end); try discriminate E.
      split; [reflexivity|]. apply bind_ok in E. destruct E as ([k|] & E1 & E2); [eauto|discriminate E2]. }
    destruct Z as (Z & k & V). clear E C Sp. destruct A as [ws v H| | | | | | | | | | | |w t x d R I W| |]; try discriminate Z.
    split; [exact R|]. assert (Q : vi_vis (Pf_RunwayRange.of_sight (SpecVisibility.told t SpecVisibility.Around d) ViI_SFC_OR_TWR_VIS_INTEGER) = d) by (destruct I as [I|[I|[]]]; injection I as <- <-; reflexivity).
    pose proof (Pf_VisTexts.whole_miles _ _ W) as Wm. apply Pf_VisTexts.variable_append in V; [|right; exists x; rewrite Q; exact Wm].
    destruct V as (a & b & mn & high & low & -> & A & B & V & _). unfold Pf_VisTexts.low_end in V. rewrite Q in V. exists w, x, a, b, low, high. split; [destruct I as [I|[I|[]]]; injection I as <- <-; cbn; auto|]. split; [reflexivity|]. split; [reflexivity|].
    destruct V as [[V _]|[_ V]]; [rewrite (Pf_VisTexts.miles_reported _ _ _ Wm) in V; discriminate V|]. split; [exact (SpecVisibility.Low_added x a d mn low W A V)|exact (SpecVisibility.High_one b high B)].
  - left. intros (w & md & g' & E). apply appended_inv in E. destruct g'; try contradiction. cbn [appended_as] in E. apply Pf_Visibility.refused_completed in E. rewrite (proj1 E) in C. discriminate C.
Qed.
(** What the next word does *)
Theorem next_iff : forall part now ws g next, in_report part -> Assembled part now ws g -> ~ Continues part now (Group_index g) ws next ->
  ((exists g', refuses part now g next g') <-> Text part now (Group_index g) ws /\ ~ Wrong_range part ws next)
  /\ (spoils part now g next <-> ~ Text part now (Group_index g) ws \/ Wrong_range part ws next).
Proof.
  intros part now ws g next P A N. rewrite (continues_iff _ _ _ _ _ P A) in N. rewrite (text_iff _ _ _ _ P A).
  assert (X : forall g', refuses part now g next g' -> spoils part now g next -> False).
  { intros g' R Sp. specialize (R (md_at now) eq_refl). destruct (Sp (md_at now) eq_refl) as (h & E). rewrite R in E. discriminate E. }
  destruct (next_does part now ws g next A) as [C|[(g' & R)|Sp]]; [contradiction| |].
  - assert (M : may_end part g) by exact (refused_end _ _ _ _ _ R). assert (W : ~ Wrong_range part ws next) by (intros W; exact (range_spoils _ _ _ _ _ _ A W R)).
    split; split; [tauto|eauto|intros Sp; destruct (X _ R Sp)|tauto].
  - pose proof (spoils_why _ _ _ _ _ P A Sp) as Y. split; split; [intros (g' & R); destruct (X _ R Sp)|tauto|auto|auto].
Qed.
Lemma said_refused : forall part now ws g next g', in_report part -> Assembled part now ws g -> refuses part now g next g' -> Said part now ws g'.
Proof.
  intros part now ws g next g' P A R. pose proof (assembled_said _ _ _ _ P A (refused_end _ _ _ _ _ R)) as H. destruct (assembled_known _ _ _ _ A) as [_ Re].
  specialize (R (md_at now) eq_refl). pose proof (Pf_Same.refused_same _ _ _ _ _ Re R) as Sv.
  destruct g, g'; cbn [SpecAppend.same_values] in Sv; try contradiction; try discriminate Sv; try (rewrite <- Sv; exact H).
  - cbn [Said] in *. apply appended_inv in R. cbn [appended_as] in R. apply Pf_Visibility.assembled_vis in A. apply Pf_Visibility.refused_completed in R. destruct R as [C ->].
    replace (SpecVisibility.seen_by (Vis_setInc g ViI_NONE)) with (SpecVisibility.seen_by g); [exact H|]. destruct g; reflexivity.
  - cbn [Said] in *. replace (SpecClouds.sky_of g0) with (SpecClouds.sky_of g); [exact H|]. unfold SpecClouds.sky_of. decompose [and] Sv. congruence.
  - cbn [Said] in *. destruct H as (Pr & v & V & Sh). split; [exact Pr|]. exists v. split; [exact V|]. unfold SpecNearby.shows in *. decompose [and] Sv. decompose [and] Sh. repeat split; congruence.
Qed.
