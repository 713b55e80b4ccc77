(** Which groups matter for the syntax and the metadata of a report, and that appending and
    re-parsing only ever touch the others. *)
From Verif Require Import Prim Regex Float Values Weather Groups1 Groups2 Groups3 Groups4 Parser Lib
  SpecRegex Pf_Regex Pf_Caps Pf_Ok Pf_OkValues Pf_OkGroups1 Pf_OkGroups3 Pf_OkGroups4 SpecReach Pf_Total Pf_Kinds.
Local Open Scope string_scope.

(** Keywords, location, report time, time spans and CCA..CCZ *)
Definition active (g : Group) : bool :=
  match g with
  | GKeyword _ | GLocation _ | GReportTime _ => true
  | GTrend t => Trend_isTimeSpanGroup t
  | GMisc m => MsType_beq (ms_type m) Ms_CORRECTED_WEATHER_OBSERVATION
  | _ => false
  end.

(** ** Appending *)

Lemma trend_from : forall t, Reachable (GTrend t) ->
  (tr_t t = Tr_FROM -> tr_isTafTimeSpanGroup t = false)
  /\ (tr_t t = Tr_PROB -> tr_prob t <> Pr_NONE /\ tr_isTafTimeSpanGroup t = false).
Proof.
  apply reach_Trend.
  - intros s part md t E; unfold TrendGroup_parse, or_else in E.
    cbv zeta in E.
    repeat match type of E with
    | (if ?b then _ else _) = _ => destruct b
    | bind ?m _ = _ => let x := fresh "x" in apply bind_ok in E; destruct E as (x & ? & E)
    | match ?o with Some _ => _ | None => _ end = _ => destruct o
    | Ok (Some _) = _ => injection E as <-
    | Ok None = _ => discriminate E
    end; try (cbn; split; intros; try split; (discriminate || reflexivity)).
    all: repeat match goal with
    | H : (if ?b then _ else _) = Ok (Some _) |- _ => destruct b; [|discriminate H]
    end.
    all: match goal with
    | H : Trend_fromTimeSpan _ = Ok (Some _) |- _ => unfold Trend_fromTimeSpan in H
    | H : Trend_fromTimeSpanHHMM _ = Ok (Some _) |- _ => unfold Trend_fromTimeSpanHHMM in H
    | H : Trend_fromFm _ = Ok (Some _) |- _ => unfold Trend_fromFm in H
    | H : Trend_fromTrendTime _ = Ok (Some _) |- _ => unfold Trend_fromTrendTime in H
    end.
    all: try rename E into H.
    all: repeat match goal with
    | H : (if ?b then _ else _) = Ok (Some _) |- _ => destruct b
    | H : bind ?m _ = Ok (Some _) |- _ => let x := fresh "x" in apply bind_ok in H; destruct H as (x & ? & H)
    | H : match ?o with Some _ => _ | None => _ end = Ok (Some _) |- _ => destruct o
    | H : Ok (Some _) = Ok (Some _) |- _ => injection H as <-
    | H : Ok None = Ok (Some _) |- _ => discriminate H
    end; cbn; split; intros; try split; (discriminate || reflexivity).
  - intros t s part md t' a _ [P Q] E; unfold TrendGroup_append in E.
    destruct (TrType_beq (tr_t t) Tr_NOSIG); [injection E as <- <-; auto|].
    apply bind_ok in E; destruct E as ([n|] & _ & E); [|injection E as <- <-; auto].
    unfold Trend_combineProbAndTrendTypeGroups, Trend_combineTrendTypeAndTimeGroup,
      Trend_combineProbAndTimeSpanGroups, Trend_combineIncompleteGroups, Trend_isBecmgTempoInter,
      Trend_isTrendTypeGroup, Trend_isProbabilityGroup in E.
    destruct t as [ty pr taf f u at_]; destruct n as [ty' pr' taf' f' u' at'].
    cbn [tr_t tr_prob tr_isTafTimeSpanGroup tr_from tr_till tr_at] in *.
    destruct ty, ty'; cbn [TrType_beq andb orb negb] in E;
      repeat match type of E with
      | match (if ?b then _ else _) with Some _ => _ | None => _ end = _ => destruct b
      end; injection E as <- <-; cbn in *; split; intros; try discriminate; auto.
Qed.

Lemma active_append : forall g s part md, Reachable g -> active g = true ->
  Group_append g s part md = Ok (g, NOT_APPENDED).
Proof.
  intros g s part md R A; destruct g; try discriminate A; try reflexivity.
  - destruct (append_returns _ s part md R) as (g' & a & E); rewrite E.
    apply appended_inv in E; destruct g'; try contradiction; cbn in E, A.
    unfold Trend_isTimeSpanGroup in A; repeat (apply andb_prop in A; destruct A as [A ?]).
    apply internal_TrType_dec_bl in A.
    unfold TrendGroup_append in E; rewrite A in E; cbn [TrType_beq] in E.
    apply bind_ok in E; destruct E as ([n|] & _ & E); [|injection E as <- <-; reflexivity].
    unfold Trend_combineProbAndTrendTypeGroups, Trend_combineTrendTypeAndTimeGroup,
      Trend_combineProbAndTimeSpanGroups, Trend_combineIncompleteGroups, Trend_isBecmgTempoInter,
      Trend_isProbabilityGroup in E; rewrite A in E; cbn [TrType_beq andb orb negb] in E.
    rewrite orb_true_r in E; cbn [orb] in E; injection E as <- <-; reflexivity.
  - apply reachable_inv in R; cbn in A, R; apply internal_MsType_dec_bl in A.
    destruct (R A) as [N _]; cbn [Group_append wrap]; unfold MiscGroup_append; rewrite N; reflexivity.
Qed.

Lemma append_misc_type : forall m s part md m' a,
  MiscGroup_append m s part md = Ok (m', a) -> ms_type m' = ms_type m.
Proof.
  intros m s part md m' a E; unfold MiscGroup_append, Misc_appendHailstoneFraction,
    Misc_appendDensityAltitude in E; cbv zeta in E; destruct (ms_inc m);
    repeat match type of E with
    | (if ?b then _ else _) = _ => destruct b
    | bind ?m _ = _ => let x := fresh "x" in let H := fresh in apply bind_ok in E; destruct E as (x & H & E)
    | match (if ?b then _ else _) with _ => _ end = _ => destruct b
    | Ok (_, _) = Ok (_, _) => injection E as <- <-
    end; try reflexivity.
  repeat match type of H with
    | (if ?b then _ else _) = _ => destruct b
    | bind ?m _ = _ => let x := fresh "x" in let H' := fresh in apply bind_ok in H; destruct H as (x & H' & H)
    | Ok _ = Ok _ => injection H as <-
    | match ?o with _ => _ end = _ => destruct o
    end; try discriminate; injection E as <- <-; reflexivity.
Qed.

Lemma passive_append : forall g s part md g' a, Reachable g -> active g = false ->
  Group_append g s part md = Ok (g', a) -> active g' = false.
Proof.
  intros g s part md g' a R A E; apply appended_inv in E.
  destruct g, g'; try contradiction; try reflexivity; try discriminate A; cbn in E, A |- *.
  - destruct (trend_from _ R) as [F P]; unfold TrendGroup_append in E.
    destruct (TrType_beq (tr_t g) Tr_NOSIG); [injection E as <- <-; auto|].
    apply bind_ok in E; destruct E as ([n|] & _ & E); [|injection E as <- <-; auto].
    unfold Trend_combineProbAndTrendTypeGroups, Trend_combineTrendTypeAndTimeGroup,
      Trend_combineProbAndTimeSpanGroups, Trend_combineIncompleteGroups, Trend_isBecmgTempoInter,
      Trend_isTrendTypeGroup, Trend_isProbabilityGroup in E.
    destruct g as [ty pr taf f u at_]; destruct n as [ty' pr' taf' f' u' at'].
    cbn [tr_t tr_prob tr_isTafTimeSpanGroup tr_from tr_till tr_at] in *.
    destruct ty, ty'; cbn [TrType_beq andb orb negb] in E; rewrite ?orb_true_r in E; cbn [orb] in E;
      repeat match type of E with
      | match (if ?b then _ else _) with Some _ => _ | None => _ end = _ => destruct b
      end; injection E as <- <-; try exact A; try reflexivity;
      unfold Trend_isTimeSpanGroup; cbn.
    all: try (rewrite F by reflexivity; reflexivity).
    all: try (destruct (P eq_refl) as [_ ->]; reflexivity).
  - rewrite (append_misc_type _ _ _ _ _ _ E); exact A.
Qed.

Lemma passive_invalidated : forall g s part md g', Reachable g ->
  Group_append g s part md = Ok (g', GROUP_INVALIDATED) ->
  active g = false /\ (4 <= Group_index g)%nat /\ is_fallback g = false.
Proof.
  intros g s part md g' R E.
  assert (A : active g = false).
  { destruct (active g) eqn:A; [|reflexivity]; rewrite active_append in E by assumption; discriminate. }
  split; [exact A|]; apply appended_inv in E.
  destruct g, g'; try contradiction; try discriminate A; cbn in E |- *; try (split; [lia | reflexivity]).
  - exfalso; unfold TrendGroup_append in E.
    destruct (TrType_beq (tr_t g) Tr_NOSIG); [discriminate|].
    apply bind_ok in E; destruct E as ([n|] & _ & E); [|discriminate].
    repeat match type of E with
    | match ?o with Some _ => _ | None => _ end = _ => destruct o; try discriminate
    end.
  - discriminate.
Qed.

(** ** Re-parsing *)

Definition spaced (s : string) : Prop := exists a b, s = a ++ String " " b.
Lemma spaced_app : forall a b, spaced (a ++ String " " b).
Proof. intros a b; exists a, b; reflexivity. Qed.
Definition not_space (c : ascii) : bool := negb (Ascii.eqb c " ").
Lemma spaced_all : forall s, spaced s -> str_all not_space s = false.
Proof. intros s (a & b & ->); rewrite str_all_app; cbn; apply andb_false_r. Qed.
Lemma spaced_seqb : forall s t, spaced s -> str_all not_space t = true -> seqb s t = false.
Proof.
  intros s t H T; destruct (seqb s t) eqn:E; [|reflexivity].
  apply seqb_eq in E; subst; rewrite spaced_all in T by exact H; discriminate.
Qed.
Lemma spaced_match : forall s r, spaced s -> cls_all not_space r = true -> regex_match r s = None.
Proof.
  intros s r H C; apply regex_match_none; intros L.
  pose proof (lang_cls_all not_space r s L C) as X; rewrite spaced_all in X by exact H; discriminate.
Qed.
Lemma spaced_is_match : forall s r, spaced s -> cls_all not_space r = true -> is_match r s = false.
Proof. intros s r H C; unfold is_match; rewrite spaced_match by assumption; reflexivity. Qed.

Ltac no_space := vm_compute; reflexivity.
Lemma spaced_keyword : forall s part md, spaced s -> KeywordGroup_parse s part md = Ok None.
Proof.
  intros s part md H; unfold KeywordGroup_parse; cbv zeta.
  repeat match goal with
  | |- context [seqb s ?t] => rewrite (spaced_seqb s t H) by no_space
  end; rewrite ?andb_false_r; reflexivity.
Qed.
Lemma spaced_location : forall s part md, spaced s -> LocationGroup_parse s part md = Ok None.
Proof.
  intros s part md H; unfold LocationGroup_parse; destruct (negb (is_part part RP_HEADER)); [reflexivity|].
  rewrite spaced_is_match; [reflexivity | exact H | no_space].
Qed.
Lemma spaced_reporttime : forall s part md, spaced s -> ReportTimeGroup_parse s part md = Ok None.
Proof.
  intros s part md H; unfold ReportTimeGroup_parse; destruct (negb (is_part part RP_HEADER)); [reflexivity|].
  rewrite spaced_is_match; [reflexivity | exact H | no_space].
Qed.
Lemma spaced_trend : forall s part md, spaced s -> TrendGroup_parse s part md = Ok None.
Proof.
  intros s part md H; unfold TrendGroup_parse; cbv zeta.
  repeat match goal with
  | |- context [seqb s ?t] => rewrite (spaced_seqb s t H) by no_space
  end; rewrite ?andb_false_r.
  unfold Trend_fromTimeSpan, Trend_fromTimeSpanHHMM, Trend_fromFm, Trend_fromTrendTime.
  rewrite (spaced_match s rgx_timespan H), (spaced_match s rgx_trendtime H), (spaced_is_match s rgx_fm H) by no_space.
  destruct part; reflexivity.
Qed.
Lemma misc_corrected : forall s part md m, MiscGroup_parse s part md = Ok (Some m) ->
  ms_type m = Ms_CORRECTED_WEATHER_OBSERVATION -> part = RP_METAR /\ Lang rgx_correction s.
Proof.
  intros s part md m E T; unfold MiscGroup_parse, or_else in E; cbv zeta in E.
  destruct part; cbn [is_part ReportPart_beq orb] in E.
  - discriminate.
  - discriminate.
  - split; [reflexivity|].
    apply bind_ok in E; destruct E as ([x|] & E1 & E).
    + injection E as ->; destruct (Misc_parseColourCode s) eqn:C; [|discriminate].
      injection E1 as <-; cbn in T; subst m0; apply colour_type in C; contradiction.
    + cbn [bind] in E; apply bind_ok in E; destruct E as ([x|] & E2 & E); [|discriminate].
      destruct (regex_match rgx_correction s) eqn:M; [|discriminate].
      eapply match_lang; exact M.
  - exfalso; cbn [bind] in E; apply bind_ok in E; destruct E as ([x|] & E1 & E); [|discriminate].
    injection E as ->; destruct (regex_match rgx_issuer s); [|discriminate].
    apply bind_ok in E1; destruct E1 as (n & _ & E1); injection E1 as <-; cbn in T.
    destruct (seqb _ "N"); discriminate.
  - exfalso; apply bind_ok in E; destruct E as ([x|] & E1 & E).
    + injection E as ->; destruct (Misc_parseColourCode s) eqn:C; [|discriminate].
      injection E1 as <-; cbn in T; subst m0; apply colour_type in C; contradiction.
    + cbn [bind] in E; destruct (seqb s "GR"); [injection E as <-; discriminate|].
      destruct (seqb s "DENSITY"); [injection E as <-; discriminate|].
      destruct (regex_match rgx_sunshine s).
      * apply bind_ok in E; destruct E as (n & _ & E); injection E as <-; discriminate.
      * destruct (seqb s "FROIN"); [injection E as <-|]; discriminate.
Qed.
Definition corrections : list string :=
  map (fun n => "CC" ++ String (ascii_of_nat (65 + n)) "") (seq 0 26).
Lemma correction_words : forall s, Lang rgx_correction s -> In s corrections.
Proof. intros s L; eapply lang_words; [exact L | vm_compute; reflexivity]. Qed.
Lemma corrections_parse : forall s md, In s corrections ->
  exists m, GroupParser_parse s RP_METAR md = Ok (GMisc m).
Proof.
  intros s md H; unfold corrections in H; vm_compute in H.
  repeat (destruct H as [<- |H]; [eexists; vm_compute; reflexivity|]); contradiction.
Qed.

Lemma alternative_none : forall (A : Type) (mk : A -> Group) p s part md,
  alternative mk p s part md = Ok None -> p s part md = Ok None.
Proof.
  intros A mk p s part md H; unfold alternative in H; apply bind_ok in H.
  destruct H as ([a|] & E & H); [discriminate | exact E].
Qed.
(** The text of the last group is one word and the group is what this word was parsed as, or the
    text has a space in it (or the group is unknown and no longer looked at). *)
Definition last_inv (l : list GroupInfo) : Prop :=
  match l with
  | [] => True
  | i :: _ => is_fallback (gi_group i) = true \/ spaced (gi_rawString i)
      \/ exists md, GroupParser_parse (gi_rawString i) (gi_reportPart i) md = Ok (gi_group i)
  end.

Lemma passive_reparsed : forall s part md md0 g g',
  spaced s \/ GroupParser_parse s part md0 = Ok g -> (4 <= Group_index g)%nat ->
  g' = GUnknown mkUnknown \/ (parsed_as g' s part md /\ Group_index g' <> Group_index g) ->
  active g' = false.
Proof.
  intros s part md md0 g g' H I [->|[P N]]; [reflexivity|].
  destruct H as [H|H].
  - destruct g'; try reflexivity; cbn in P |- *.
    + rewrite spaced_keyword in P by exact H; discriminate.
    + rewrite spaced_location in P by exact H; discriminate.
    + rewrite spaced_reporttime in P by exact H; discriminate.
    + rewrite spaced_trend in P by exact H; discriminate.
    + destruct (MsType_beq _ _) eqn:T; [|reflexivity]; apply internal_MsType_dec_bl in T.
      destruct (misc_corrected _ _ _ _ P T) as [_ L].
      pose proof (lang_cls_all not_space _ _ L eq_refl) as X; rewrite spaced_all in X by exact H; discriminate.
  - destruct (GroupParser_parse_inv _ _ _ _ H) as [_ R].
    destruct g'; try reflexivity; cbn in P |- *.
    + specialize (R 0%nat _ ltac:(lia) eq_refl); apply alternative_none in R.
      change (KeywordGroup_parse s part md = Ok None) in R; rewrite R in P; discriminate.
    + specialize (R 1%nat _ ltac:(lia) eq_refl); apply alternative_none in R.
      change (LocationGroup_parse s part md = Ok None) in R; rewrite R in P; discriminate.
    + specialize (R 2%nat _ ltac:(lia) eq_refl); apply alternative_none in R.
      change (ReportTimeGroup_parse s part md = Ok None) in R; rewrite R in P; discriminate.
    + specialize (R 3%nat _ ltac:(lia) eq_refl); apply alternative_none in R.
      change (TrendGroup_parse s part md = Ok None) in R; rewrite R in P; discriminate.
    + destruct (MsType_beq _ _) eqn:T; [|reflexivity]; apply internal_MsType_dec_bl in T.
      destruct (misc_corrected _ _ _ _ P T) as [-> L].
      destruct (corrections_parse s md0 (correction_words s L)) as (m & Em).
      rewrite Em in H; injection H as <-; exfalso; apply N; reflexivity.
Qed.

(** ** The view of the groups *)

Definition item : Type := ReportPart * option Group.
Definition av (g : Group) : option Group := if active g then Some g else None.
Definition view (i : GroupInfo) : item := (gi_reportPart i, av (gi_group i)).
(** Runs of passive groups in the same part count as one. *)
Definition push (x : item) (l : list item) : list item :=
  match x, l with
  | (p, None), (p', None) :: _ => if ReportPart_beq p p' then l else x :: l
  | _, _ => x :: l
  end.
Definition V (l : list GroupInfo) : list item := fold_right (fun i v => push (view i) v) [] l.
Lemma V_cons : forall i l, V (i :: l) = push (view i) (V l).
Proof. reflexivity. Qed.

Definition head_part (P : ReportPart) (v : list item) : Prop :=
  match v with (p, None) :: _ => p = P | _ => True end.
Fixpoint no_adj (v : list item) : Prop :=
  match v with
  | (p, None) :: (((p', None) :: _) as v') => False
  | _ :: v' => no_adj v'
  | [] => True
  end.
Lemma push_same : forall p v, push (p, None) (push (p, None) v) = push (p, None) v.
Proof.
  intros p v; destruct v as [|[p' [g|]] v]; cbn; rewrite ?internal_ReportPart_dec_lb by reflexivity; try reflexivity.
  destruct (ReportPart_beq p p') eqn:E; cbn; rewrite ?E; [|rewrite internal_ReportPart_dec_lb by reflexivity]; reflexivity.
Qed.
Lemma push_head : forall x v, exists v', push x v = x :: v'.
Proof.
  intros [p [g|]] v; cbn; [eauto|]; destruct v as [|[p' [g|]] v]; eauto.
  destruct (ReportPart_beq p p') eqn:E; eauto.
  apply internal_ReportPart_dec_bl in E; subst; eauto.
Qed.
Lemma no_adj_push : forall x v, no_adj v -> head_part (fst x) v \/ snd x <> None -> no_adj (push x v).
Proof.
  intros [p [g|]] v N H; cbn in *; [exact N|].
  destruct H as [H|H]; [|congruence]; destruct v as [|[p' [g|]] v]; cbn in *; auto.
  subst p'; rewrite internal_ReportPart_dec_lb by reflexivity; exact N.
Qed.
Lemma no_adj_head : forall p v, no_adj (push (p, None) v) -> head_part p v.
Proof.
  intros p v; destruct v as [|[p' [g|]] v]; cbn; auto.
  destruct (ReportPart_beq p p') eqn:E; [apply internal_ReportPart_dec_bl in E; auto | contradiction].
Qed.

Lemma V_add : forall l g part s, (active g = false -> head_part part (V l)) ->
  V (addGroupToResult l g part s) = push (part, av g) (V l).
Proof.
  intros l g part s H; destruct l as [|i l]; cbn [addGroupToResult]; [reflexivity|].
  destruct (is_fallback g && is_fallback (gi_group i)) eqn:E; [|reflexivity].
  apply andb_prop in E; destruct E as [E1 E2].
  destruct g; try discriminate E1; destruct i as [gi pi ri]; cbn [gi_group gi_reportPart gi_rawString] in *.
  destruct gi; try discriminate E2; cbn [av active].
  rewrite V_cons in H |- *; unfold view in *; cbn [gi_group gi_reportPart gi_rawString av active] in *.
  rewrite V_cons; unfold view; cbn [gi_group gi_reportPart av active].
  specialize (H eq_refl); destruct (push_head (pi, None) (V l)) as (v' & Ev); rewrite Ev in H; cbn in H.
  subst part; symmetry; apply push_same.
Qed.
Lemma last_inv_add : forall l g part s md,
  GroupParser_parse s part md = Ok g -> last_inv (addGroupToResult l g part s).
Proof.
  intros [|i l] g part s md E; cbn [addGroupToResult].
  - right; right; exists md; exact E.
  - destruct (is_fallback g && is_fallback (gi_group i)) eqn:F.
    + apply andb_prop in F; left; apply F.
    + right; right; exists md; exact E.
Qed.

Lemma append_noReparse_view : forall l s part md l' b, all_reachable l -> no_adj (V l) ->
  appendToLastResultGroup_noReparse l s part md = Ok (l', b) ->
  V l' = V l /\ (b = true -> last_inv l').
Proof.
  intros [|i l] s part md l' b R N E; cbn [appendToLastResultGroup_noReparse] in E.
  - injection E as <- <-; split; [reflexivity | discriminate].
  - destruct (is_fallback (gi_group i)); [injection E as <- <-; split; [reflexivity | discriminate]|].
    apply bind_ok in E; destruct E as ([g a] & A & E); inv R.
    assert (Ev : av g = av (gi_group i)).
    { unfold av; destruct (active (gi_group i)) eqn:Ac.
      - rewrite active_append in A by assumption; injection A as <- <-; rewrite Ac; reflexivity.
      - rewrite (passive_append _ _ _ _ _ _ H1 Ac A); reflexivity. }
    destruct a.
    + injection E as <- <-; split.
      * rewrite !V_cons; unfold view; cbn [gi_group gi_reportPart]; rewrite Ev; reflexivity.
      * intros _; right; left; apply spaced_app.
    + injection E as <- <-; split; [|discriminate].
      rewrite !V_cons; unfold view; cbn [gi_group gi_reportPart]; rewrite Ev; reflexivity.
    + assert (E' : l' = addGroupToResult (mkGroupInfo g (gi_reportPart i) "" :: l) (GUnknown mkUnknown)
                (gi_reportPart i) (gi_rawString i) /\ b = false) by (injection E; auto).
      destruct E' as [-> ->]; split; [|discriminate].
      destruct (passive_invalidated _ _ _ _ _ H1 A) as (Ac & _ & _).
      assert (Ai : av (gi_group i) = None) by (unfold av; rewrite Ac; reflexivity).
      rewrite V_add; rewrite !V_cons; unfold view; cbn [gi_group gi_reportPart]; rewrite Ev, Ai.
      * apply push_same.
      * intros _; destruct (push_head (gi_reportPart i, None) (V l)) as (v' & ->); reflexivity.
Qed.
Lemma appendToLast_view : forall l s part md l' b, all_reachable l -> no_adj (V l) -> last_inv l ->
  appendToLastResultGroup l s part md = Ok (l', b) ->
  V l' = V l /\ (b = true -> last_inv l').
Proof.
  intros [|i l] s part md l' b R N L E; cbn [appendToLastResultGroup] in E.
  - injection E as <- <-; split; [reflexivity | discriminate].
  - destruct (is_fallback (gi_group i)) eqn:Fb; [injection E as <- <-; split; [reflexivity | discriminate]|].
    apply bind_ok in E; destruct E as ([g a] & A & E).
    assert (R1 := Forall_inv R); assert (R2 := Forall_inv_tail R).
    assert (Ev : av g = av (gi_group i)).
    { unfold av; destruct (active (gi_group i)) eqn:Ac.
      - rewrite active_append in A by assumption; injection A as <- <-; rewrite Ac; reflexivity.
      - rewrite (passive_append _ _ _ _ _ _ R1 Ac A); reflexivity. }
    destruct a.
    + injection E as <- <-; split.
      * rewrite !V_cons; unfold view; cbn [gi_group gi_reportPart]; rewrite Ev; reflexivity.
      * intros _; right; left; apply spaced_app.
    + injection E as <- <-; split; [|discriminate].
      rewrite !V_cons; unfold view; cbn [gi_group gi_reportPart]; rewrite Ev; reflexivity.
    + destruct (passive_invalidated _ _ _ _ _ R1 A) as (Ac & Ix & _).
      apply bind_ok in E; destruct E as (g' & G & E); cbv zeta in E.
      assert (Rg : Reachable g').
      { pose proof (ok_GroupParser_reparse (gi_rawString i) (gi_reportPart i) md g) as O; rewrite G in O; exact O. }
      apply GroupParser_reparse_inv in G; rewrite (append_index _ _ _ _ _ _ A) in G.
      assert (Ag : active g' = false).
      { destruct L as [L|[L|[md0 L]]]; [congruence|..].
        - exact (passive_reparsed _ _ md md _ _ (or_introl L) Ix G).
        - exact (passive_reparsed _ _ md md0 _ _ (or_intror L) Ix G). }
      assert (Ai : av (gi_group i) = None) by (unfold av; rewrite Ac; reflexivity).
      rewrite V_cons in N |- *; unfold view in N |- *; rewrite Ai in N |- *.
      assert (Va : V (addGroupToResult l g' (gi_reportPart i) (gi_rawString i)) = push (gi_reportPart i, None) (V l)).
      { rewrite V_add; [unfold av; rewrite Ag; reflexivity|]; intros _; apply no_adj_head; exact N. }
      destruct (is_fallback g') eqn:Fg.
      * assert (E' : l' = addGroupToResult l g' (gi_reportPart i) (gi_rawString i) /\ b = false) by (injection E; auto).
        destruct E' as [-> ->]; split; [exact Va | discriminate].
      * apply append_noReparse_view in E; [rewrite Va in E; exact E | apply addGroup_reach; assumption |].
        rewrite Va; exact N.
Qed.
