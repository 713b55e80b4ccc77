(** Every group after the header is built from the words of its text and the time of the report. *)
From Coq Require Import Lia.
From Verif Require Import Prim Lib Regex Float Values Weather Groups1 Groups2 Groups3 Groups4 Parser SpecTokens SpecReads SpecText
  SpecReach SpecBuilt SpecAssembled Pf_Tokens Pf_Ok Pf_Caps Pf_Regex Pf_Total Pf_Steps Pf_Kinds Pf_View Pf_Fresh Pf_Words Pf_EndAppend Pf_Built.
Local Open Scope string_scope.

Lemma grown_built : forall part now ws g, Grown part now ws g -> Built part ws g.
Proof.
  intros part now ws g H; induction H as [w md g T G|w md g g' B IH T G|ws w md g g' B IH T A|ws w part' md g g' B IH A|ws].
  - eapply Built_first; eassumption.
  - eapply Built_again; eassumption.
  - eapply Built_more; eassumption.
  - eapply Built_refused; eassumption.
  - apply Built_unknown.
Qed.
Lemma grown_kind : forall part now (P : list string -> Group -> Prop),
  (forall ws, P ws (GUnknown mkUnknown)) ->
  (forall w md g, md_reportTime md = now -> parsed_as g w part md -> P [w] g) ->
  (forall ws w md g g', Grown part now ws g -> P ws g -> md_reportTime md = now -> appended_as g w part md g' APPENDED -> P (ws ++ [w])%list g') ->
  (forall ws w part' md g g', Grown part now ws g -> P ws g -> appended_as g w part' md g' NOT_APPENDED -> P ws g') ->
  forall ws g, Grown part now ws g -> P ws g.
Proof.
  intros part now P U F M N ws g H; induction H as [w md g T G|w md g g' B IH T G|ws w md g g' B IH T A|ws w part' md g g' B IH A|ws].
  - apply GroupParser_parse_inv in G. destruct G as [[-> |G] _]; [apply U|eapply F; [exact T|exact G]].
  - apply GroupParser_reparse_inv in G. destruct G as [-> |[G _]]; [apply U|eapply F; [exact T|exact G]].
  - eapply M; [exact B|exact IH|exact T|]. apply appended_inv. exact A.
  - eapply N; [exact B|exact IH|]. apply appended_inv. exact A.
  - apply U.
Qed.
Definition goodAt (now : option MetafTime) (i : GroupInfo) : Prop :=
  gi_rawString i = "" \/ gi_reportPart i = RP_HEADER \/ Grown (gi_reportPart i) now (words_of (gi_rawString i)) (gi_group i).
Lemma at_add : forall now l g part s, Forall (goodAt now) l -> (part = RP_HEADER \/ Grown part now (words_of s) g) -> s <> "" ->
  Forall (goodAt now) (addGroupToResult l g part s).
Proof.
  intros now l g part s G B N. destruct l as [|i l]; cbn [addGroupToResult].
  - constructor; [right; exact B|constructor].
  - destruct (is_fallback g && is_fallback (gi_group i)) eqn:F; [|constructor; [right; exact B|exact G]].
    apply andb_prop in F. destruct F as [_ F]. inv G. constructor; [|assumption].
    right. right. cbn [gi_group gi_reportPart gi_rawString]. destruct (gi_group i) as [| | | | | | | | | | | | | | | | | | | | |u]; try discriminate F. destruct u. apply Grown_unknown.
Qed.
Lemma at_word : forall i s part md g', goodAt (md_reportTime md) i -> good i -> gi_rawString i <> "" -> is_fallback (gi_group i) = false -> word s ->
  (s <> "" -> part = gi_reportPart i \/ active (gi_group i) = true) ->
  Group_append (gi_group i) s part md = Ok (g', APPENDED) ->
  goodAt (md_reportTime md) (mkGroupInfo g' (gi_reportPart i) (gi_rawString i ++ String " " s)).
Proof.
  intros i s part md g' [G|[G|G]] Go N F Wd Hp A; [contradiction|right; left; exact G|]. right. right. cbn [gi_group gi_reportPart gi_rawString].
  destruct Wd as [-> |T]; [destruct (end_append _ _ _ _ F A)|].
  rewrite words_app, (words_token _ T).
  destruct (Hp (proj1 T)) as [-> |Hq]; [eapply Grown_more; [exact G|reflexivity|exact A]|].
  rewrite (active_append _ _ _ _ (built_reach _ _ _ (grown_built _ _ _ _ G)) Hq) in A. discriminate.
Qed.
Lemma at_refuse : forall now i s part md g', goodAt now i -> Group_append (gi_group i) s part md = Ok (g', NOT_APPENDED) ->
  goodAt now (mkGroupInfo g' (gi_reportPart i) (gi_rawString i)).
Proof. intros now i s part md g' [G|[G|G]] A; [left; exact G|right; left; exact G|right; right; eapply Grown_refused; [exact G|exact A]]. Qed.
Lemma at_noReparse : forall i l s part md l' b, Forall (goodAt (md_reportTime md)) (i :: l) -> Forall good (i :: l) -> gi_rawString i <> "" -> word s ->
  (s <> "" -> part = gi_reportPart i \/ active (gi_group i) = true) ->
  appendToLastResultGroup_noReparse (i :: l) s part md = Ok (l', b) -> Forall (goodAt (md_reportTime md)) l'.
Proof.
  intros i l s part md l' b G Go N Wd Hp E. cbn [appendToLastResultGroup_noReparse] in E. inv G. inv Go.
  destruct (is_fallback (gi_group i)) eqn:F; [injection E as <- <-; constructor; assumption|].
  apply bind_ok in E. destruct E as ([g' a] & A & E). destruct a; apply ok_pair_inj in E; destruct E as [-> ->].
  - constructor; [eapply at_word; eassumption|assumption].
  - constructor; [eapply at_refuse; eassumption|assumption].
  - apply at_add; [constructor; [left; reflexivity|assumption]|right; apply Grown_unknown|exact N].
Qed.
Lemma at_append : forall i l s part md l' b, Forall (goodAt (md_reportTime md)) (i :: l) -> Forall good (i :: l) -> gi_rawString i <> "" -> word s ->
  (s <> "" -> part = gi_reportPart i \/ active (gi_group i) = true) ->
  appendToLastResultGroup (i :: l) s part md = Ok (l', b) -> Forall (goodAt (md_reportTime md)) l'.
Proof.
  intros i l s part md l' b G Go N Wd Hp E. cbn [appendToLastResultGroup] in E. inv G. inv Go.
  destruct (is_fallback (gi_group i)) eqn:F; [injection E as <- <-; constructor; assumption|].
  apply bind_ok in E. destruct E as ([g' a] & A & E). destruct a.
  - apply ok_pair_inj in E; destruct E as [-> ->]. constructor; [eapply at_word; eassumption|assumption].
  - apply ok_pair_inj in E; destruct E as [-> ->]. constructor; [eapply at_refuse; eassumption|assumption].
  - apply bind_ok in E. destruct E as (r & R & E). cbv zeta in E.
    destruct H3 as [X|B]; [contradiction|].
    assert (Br : gi_reportPart i = RP_HEADER \/ Grown (gi_reportPart i) (md_reportTime md) (words_of (gi_rawString i)) r).
    { destruct H1 as [X|[X|Bt]]; [contradiction|left; exact X|right].
      destruct (plain_or_spaced (gi_rawString i)) as [P|P].
      - rewrite (plain_words _ P N) in *. eapply Grown_again; [exact Bt|reflexivity|].
        rewrite (reparse_index _ _ _ (gi_group i) g'); [exact R|symmetry; exact (append_index _ _ _ _ _ _ A)].
      - rewrite (reparse_spaced _ _ _ _ _ _ _ _ B P F A R). apply Grown_unknown. }
    assert (Bu : Built (gi_reportPart i) (words_of (gi_rawString i)) r).
    { destruct (plain_or_spaced (gi_rawString i)) as [P|P].
      - rewrite (plain_words _ P N) in *. eapply Built_again; [exact B|].
        rewrite (reparse_index _ _ _ (gi_group i) g'); [exact R|symmetry; exact (append_index _ _ _ _ _ _ A)].
      - rewrite (reparse_spaced _ _ _ _ _ _ _ _ B P F A R). apply Built_unknown. }
    pose proof (at_add _ l r (gi_reportPart i) (gi_rawString i) H2 Br N) as G2.
    destruct (good_add l r (gi_reportPart i) (gi_rawString i) H4 Bu N) as [G3 _].
    destruct (is_fallback r) eqn:Fr.
    + apply ok_pair_inj in E; destruct E as [-> ->]. exact G2.
    + assert (Ea : addGroupToResult l r (gi_reportPart i) (gi_rawString i) = mkGroupInfo r (gi_reportPart i) (gi_rawString i) :: l).
      { destruct l; cbn [addGroupToResult]; rewrite ?Fr; reflexivity. }
      rewrite Ea in *. eapply at_noReparse; [exact G2|exact G3|exact N|exact Wd| |exact E]. cbn [gi_reportPart gi_group].
      intros Ns. destruct (Hp Ns) as [Hq|Hq]; [auto|]. rewrite (active_append _ _ _ _ (built_reach _ _ _ B) Hq) in A. discriminate.
Qed.
(** ** Only header groups while the status is in the header *)
Definition headers (l : list GroupInfo) : Prop := Forall (fun i => gi_reportPart i = RP_HEADER) l.
Lemma headers_add : forall l g s, headers l -> headers (addGroupToResult l g RP_HEADER s).
Proof.
  intros l g s H. destruct l as [|i l]; cbn [addGroupToResult]; [constructor; [reflexivity|constructor]|].
  inv H. destruct (is_fallback g && is_fallback (gi_group i)); constructor; auto.
Qed.
Lemma headers_append : forall l s part md l' b, headers l -> appendToLastResultGroup l s part md = Ok (l', b) -> headers l'.
Proof.
  intros [|i l] s part md l' b H E; cbn [appendToLastResultGroup] in E; [injection E as <- <-; constructor|].
  inv H. destruct (is_fallback (gi_group i)); [injection E as <- <-; constructor; auto|].
  apply bind_ok in E. destruct E as ([g' a] & A & E). destruct a.
  - apply ok_pair_inj in E; destruct E as [-> ->]. constructor; auto.
  - apply ok_pair_inj in E; destruct E as [-> ->]. constructor; auto.
  - apply bind_ok in E. destruct E as (r & R & E). cbv zeta in E. rewrite H2 in *.
    pose proof (headers_add l r (gi_rawString i) H3) as X.
    destruct (is_fallback r); [apply ok_pair_inj in E; destruct E as [-> ->]; exact X|].
    destruct (addGroupToResult l r RP_HEADER (gi_rawString i)) as [|j k]; cbn [appendToLastResultGroup_noReparse] in E; [injection E as <- <-; constructor|].
    pose proof (Forall_inv X) as Hj; cbv beta in Hj; pose proof (Forall_inv_tail X) as Hk. destruct (is_fallback (gi_group j)); [injection E as <- <-; constructor; auto|].
    apply bind_ok in E. destruct E as ([g2 a2] & A2 & E). destruct a2; apply ok_pair_inj in E; destruct E as [-> ->]; [constructor; auto|constructor; auto|].
    rewrite Hj. apply headers_add. constructor; auto.
Qed.
Lemma header_before : forall st g, getReportPart (transition st g) = RP_HEADER -> getReportPart st = RP_HEADER.
Proof. intros [[] [] []] [] H; try reflexivity; discriminate H. Qed.
Lemma repeat_body : forall t e g, getReportPart (transition (mkStatus St_REPORT_BODY_BEGIN_METAR_REPEAT_PARSE t e) g) <> RP_HEADER.
Proof. intros [] [] []; discriminate. Qed.
Lemma counted_part : forall limit n st m st', (m, st') = count_group limit n st -> getReportPart st' = RP_HEADER -> getReportPart st = RP_HEADER.
Proof.
  intros limit n st m st' E H. apply count_group_error in E. destruct E as [_ [[_ ->]|[_ ->]]]; [|exact H]. discriminate H.
Qed.
Lemma report_time_header : forall s part md t, GroupParser_parse s part md = Ok (GReportTime t) -> part = RP_HEADER.
Proof.
  intros s part md t H. apply GroupParser_parse_inv in H. destruct H as [[H|H] _]; [discriminate H|]. cbn [parsed_as] in H. unfold ReportTimeGroup_parse in H.
  destruct part; try discriminate H. reflexivity.
Qed.
Lemma time_kept : forall g md md', updateMetadata g md = Ok md' -> md_reportTime md' = md_reportTime md \/ exists t, g = GReportTime t.
Proof.
  intros g md md' H. destruct g; cbn [updateMetadata] in H; try (injection H as <-; left; try reflexivity; fail).
  - right. eexists. reflexivity.
  - destruct (TrType_beq _ _); cbn in H.
    + destruct (negb _); cbn in H; [|injection H as <-; left; reflexivity].
      destruct (negb _ && negb _); injection H as <-; left; reflexivity.
    + rewrite Bool.andb_false_r in H. cbn in H. injection H as <-. left. reflexivity.
  - destruct (_ && _); [|injection H as <-; left; reflexivity].
    apply bind_ok in H. destruct H as (d & _ & H). apply bind_ok in H. destruct H as (n & _ & H). injection H as <-. left. reflexivity.
Qed.
Definition grownInv (p : ParserState) : Prop :=
  (getReportPart (ps_status p) = RP_HEADER -> headers (ps_groups p)) /\ Forall (goodAt (md_reportTime (ps_md p))) (ps_groups p).
Lemma headers_at : forall now l, headers l -> Forall (goodAt now) l.
Proof. intros now l H. eapply Forall_impl; [|exact H]. intros i E. right. left. exact E. Qed.
Lemma grown_steps : forall limit used p, Steps limit used p -> Forall token used -> grownInv p.
Proof.
  intros limit. refine (steps_induction limit (fun used p => Forall token used -> grownInv p) _ _).
  - intros _. split; [intros _|]; constructor.
  - intros used p s q S I Er E St Iq IH F. apply Forall_app in F. destruct F as [F1 F2]. inv F2.
    destruct (IH F1) as [H G]. destruct (good_steps _ _ _ S F1) as [Go T]. unfold parse_step in E. cbv zeta in E.
    apply bind_ok in E. destruct E as ([l b] & A & E).
    assert (HG : (getReportPart (ps_status p) = RP_HEADER -> headers l) /\ Forall (goodAt (md_reportTime (ps_md p))) l).
    { split; [intros Hp; exact (headers_append _ _ _ _ _ _ (H Hp) A)|].
      destruct (ps_groups p) as [|i l0] eqn:Eg.
      - cbn in A. injection A as <- _. constructor.
      - refine (at_append i l0 s _ _ l b G Go T (or_intror H1) _ A). intros _. exact (part_of_last p i l0 I Er Eg). }
    destruct HG as [Hl Gl]. destruct b; cbn [negb] in E.
    + destruct (count_group limit (ps_count p) (ps_status p)) as [n st] eqn:Ec; injection E as <-. split; cbn [ps_status ps_groups ps_md]; [|exact Gl].
      intros Hs. apply Hl. exact (counted_part _ _ _ _ _ (eq_sym Ec) Hs).
    + apply bind_ok in E; destruct E as ([[[g part] n] st] & L & E).
      apply bind_ok in E; destruct E as (md & U & E); injection E as <-.
      apply loop_fresh in L; [|apply I | exact Er]; destruct L as (st0 & n0 & Fr & Ec & _).
      split; cbn [ps_status ps_groups ps_md].
      * intros Hs. apply (counted_part _ _ _ _ _ Ec) in Hs. destruct Fr as [g Gp _|g0 g _ _ _ _ _ _ Gp].
        -- apply header_before in Hs. rewrite Hs. apply headers_add. exact (Hl Hs).
        -- destruct (repeat_body _ _ _ Hs).
      * destruct (time_kept _ _ _ U) as [-> |[t Et]].
        -- apply at_add; [exact Gl| |apply H1]. right.
           rewrite (words_token s H1). destruct Fr as [g Gp _|g0 g _ _ _ _ _ _ Gp]; eapply Grown_first; try exact Gp; reflexivity.
        -- apply headers_at. destruct Fr as [g Gp _|g0 g _ _ _ _ _ _ Gp]; subst g; pose proof (report_time_header _ _ _ _ Gp) as Hp; [|discriminate Hp].
           rewrite Hp. apply headers_add. exact (Hl Hp).
Qed.
Theorem result_grown : forall sgn report limit r, parse sgn report limit = Ok r ->
  forall g part raw, In (mkGroupInfo g part raw) (pr_groups r) -> raw <> "" -> part <> RP_HEADER ->
    Grown part (md_reportTime (pr_metadata r)) (words_of raw) g.
Proof.
  intros sgn report limit r E g part raw Hi Nr Np; destruct (parse_inv _ _ _ _ E) as (used & rest & p & T & S & R & Ee & F).
  destruct (good_steps _ _ _ S F) as [Go Tx]. destruct (grown_steps _ _ _ S F) as [_ G].
  apply parse_end_inv in Ee. destruct Ee as (l & Gr & M & C). rewrite Gr in Hi. apply in_rev in Hi.
  destruct C as [[_ ->]|(l' & b & N & A & j & l0 & -> & ->)]; [contradiction|].
  destruct (ps_groups p) as [|k l1] eqn:Eg; [congruence|].
  apply at_append in A; [|exact G|exact Go|exact Tx|left; reflexivity|congruence].
  rewrite Forall_forall in A.
  assert (X : goodAt (md_reportTime (ps_md p)) (mkGroupInfo g part raw)) by (apply A; destruct (sempty (gi_rawString j)); [right|]; exact Hi).
  destruct X as [X|[X|X]]; [contradiction|contradiction|]. rewrite M. exact X.
Qed.
