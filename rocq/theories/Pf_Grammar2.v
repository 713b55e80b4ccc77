(** The error of the result and the grammar (C09, C10). *)
From Verif Require Import Prim Regex Float Values Weather Groups1 Groups2 Groups3 Groups4 Parser Lib
  SpecTokens SpecReads Pf_Tokens SpecText SpecLimit SpecGrammar Pf_Ok SpecReach Pf_Total Pf_Steps Pf_Kinds
  Pf_View Pf_Fresh Pf_Shape Pf_Limit Pf_Grammar.

(** ** What the state says about the labels so far *)
Definition Header (t : ReportType) (h : list label) : Prop := (h = [] /\ t = RT_UNKNOWN) \/ ReportTypeOf t h.
Definition StateShape (q : Status) (l : list label) : Prop :=
  match st_state q with
  | St_REPORT_TYPE_OR_LOCATION => l = [] /\ st_type q = RT_UNKNOWN
  | St_CORRECTION => ReportTypeOf (st_type q) l /\ length l = 1%nat
  | St_LOCATION => ReportTypeOf (st_type q) l /\ length l = 2%nat
  | St_REPORT_TIME => exists h, l = (h ++ [head SG_LOCATION])%list /\ Header (st_type q) h
  | St_TIME_SPAN => exists h, l = (h ++ [head SG_LOCATION; head SG_REPORT_TIME])%list /\ Header (st_type q) h
      /\ st_type q <> RT_METAR
  | St_REPORT_BODY_BEGIN_METAR =>
    st_type q = RT_METAR /\ exists h, l = (h ++ [head SG_LOCATION; head SG_REPORT_TIME])%list /\ ReportTypeOf RT_METAR h
  | St_REPORT_BODY_METAR => st_type q = RT_METAR /\ exists l' g, l = (l' ++ [(RP_METAR, g)])%list
  | St_REMARK_METAR => st_type q = RT_METAR /\ In (RP_METAR, SG_RMK) l
  | St_REPORT_BODY_BEGIN_TAF => st_type q = RT_TAF /\ exists l', l = (l' ++ [head SG_TIME_SPAN])%list
  | St_REPORT_BODY_TAF => st_type q = RT_TAF /\ In (head SG_TIME_SPAN) l /\ exists l' g, l = (l' ++ [(RP_TAF, g)])%list
  | St_REMARK_TAF => st_type q = RT_TAF /\ In (head SG_TIME_SPAN) l /\ In (RP_TAF, SG_RMK) l
  | St_NIL => exists l' p, l = (l' ++ [(p, SG_NIL)])%list
  | St_CNL => st_type q = RT_TAF /\ exists l', l = (l' ++ [(RP_TAF, SG_CNL)])%list /\ In (head SG_TIME_SPAN) l
  | St_REPORT_BODY_BEGIN_METAR_REPEAT_PARSE | St_ERROR => False
  end.

Lemma state_shape_step : forall q x q' l, st_error q = RE_NONE -> StateShape q l -> lstep q x = Some q' -> StateShape q' (l ++ [x])%list.
Proof.
  intros [s t e] [p g] q' l E H S; cbn in E; subst e; unfold StateShape in *; cbn [st_state st_type] in H.
  assert (IN : forall A (y z : A) m, In y m -> In y (m ++ [z])%list) by (intros; apply in_or_app; auto).
  destruct s; try contradiction H; cbn [lstep] in S.
  - (* REPORT_TYPE_OR_LOCATION *)
    destruct H as [-> ->]; destruct p; try discriminate S; destruct g; cbn in S; try discriminate S; injection S as <-; cbn.
    1-3: split; [constructor | reflexivity].
    exists []; split; [reflexivity | left; auto].
  - (* CORRECTION *)
    destruct H as [H Ln]; destruct p; try discriminate S.
    destruct g; cbn in S; try discriminate S.
    + injection S as <-; cbn; inversion H; subst; try discriminate Ln; split; try reflexivity; constructor.
    + destruct t; cbn in S; try discriminate S; injection S as <-; cbn; inversion H; subst; try discriminate Ln; split; try reflexivity; constructor.
    + injection S as <-; cbn; exists l; split; [reflexivity | right; exact H].
  - (* LOCATION *)
    destruct H as [H Ln]; destruct p; try discriminate S; destruct g; cbn in S; try discriminate S; injection S as <-; cbn.
    exists l; split; [reflexivity | right; exact H].
  - (* REPORT_TIME *)
    destruct H as (h & -> & H); destruct p; try discriminate S; destruct g; cbn in S; try discriminate S.
    + destruct t; cbn in S; injection S as <-; cbn.
      * exists h; rewrite <- app_assoc; repeat split; auto; discriminate.
      * split; auto; exists h; rewrite <- app_assoc; split; auto; destruct H as [[_ X]|H]; [discriminate X | exact H].
      * exists h; rewrite <- app_assoc; repeat split; auto; discriminate.
    + destruct t; cbn in S; try discriminate S; injection S as <-; cbn; split; auto.
      exists (h ++ [head SG_LOCATION])%list; reflexivity.
    + injection S as <-; cbn; exists (h ++ [head SG_LOCATION])%list, RP_HEADER; reflexivity.
  - (* TIME_SPAN *)
    destruct t.
    + destruct p; try discriminate S.
      * destruct g; try discriminate S; injection S as <-; cbn; eauto.
      * destruct g; cbn in S; try discriminate S; injection S as <-; cbn; eauto; split; auto; apply in_or_app; cbn; auto.
    + destruct H as (_ & _ & _ & H); congruence.
    + destruct p; try discriminate S; destruct g; cbn in S; try discriminate S; injection S as <-; cbn; eauto.
  - (* BODY_BEGIN_METAR *)
    destruct H as [-> H]; destruct p; try discriminate S; destruct g; cbn in S; try discriminate S; injection S as <-; cbn; eauto.
    split; auto; apply in_or_app; cbn; auto.
  - destruct H as [-> H]; destruct p; try discriminate S; destruct g; cbn in S; try discriminate S; injection S as <-; cbn; eauto.
    split; auto; apply in_or_app; cbn; auto.
  - (* BODY_BEGIN_TAF *)
    destruct H as [-> (l' & ->)].
    assert (Q : In (head SG_TIME_SPAN) ((l' ++ [head SG_TIME_SPAN]) ++ [(p, g)])%list) by (apply IN, in_or_app; cbn; auto).
    destruct p; try discriminate S; destruct g; cbn in S; try discriminate S; injection S as <-; cbn; eauto 7.
    split; auto; split; auto; apply in_or_app; cbn; auto.
  - (* BODY_TAF *)
    destruct H as [-> [H1 H2]].
    apply (IN _ _ (p, g)) in H1.
    destruct p; try discriminate S; destruct g; cbn in S; try discriminate S; injection S as <-; cbn; eauto 7.
    split; auto; split; auto; apply in_or_app; cbn; auto.
  - (* REMARK_METAR *)
    destruct H as [-> H]; destruct p; try discriminate S; destruct g; cbn in S; try discriminate S; injection S as <-; cbn; auto.
  - destruct H as [-> [H1 H2]]; destruct p; try discriminate S; destruct g; cbn in S; try discriminate S; injection S as <-; cbn; auto.
  - exfalso; destruct p; try discriminate S; destruct g; cbn in S; try discriminate S.
  - exfalso; destruct p; try discriminate S; destruct g; cbn in S; try discriminate S.
Qed.
Lemma lrun_snoc : forall l x st, lrun st (l ++ [x])%list = match lrun st l with Some q => lstep q x | None => None end.
Proof. intros; rewrite lrun_app; destruct (lrun st l) as [q|]; cbn; [destruct (lstep q x)|]; reflexivity. Qed.
Lemma state_shape : forall l q, lrun Status_init l = Some q -> StateShape q l.
Proof.
  induction l as [|x l IH] using rev_ind; intros q H; [injection H as <-; cbn; auto|].
  rewrite lrun_snoc in H; destruct (lrun Status_init l) as [q0|] eqn:E; [|discriminate H].
  eapply state_shape_step; [| apply IH; reflexivity | exact H].
  eapply lrun_state; [exact E | ..]; try reflexivity; discriminate.
Qed.

(** ** The error at the first label that does not fit *)
Lemma error_at : forall l st x p g, lrun Status_init l = Some st -> x = (p, g) -> lstep st x = None ->
  p = getReportPart st \/ (st_state st = St_TIME_SPAN /\ st_type st = RT_UNKNOWN /\ p = RP_METAR) ->
  (st_state st = St_TIME_SPAN -> st_type st = RT_UNKNOWN -> p = RP_METAR) ->
  ErrorAt l x (lerror st x).
Proof.
  intros l [s t e] x p g H -> S P P'.
  assert (E : e = RE_NONE).
  { destruct (lrun_state _ _ _ H) as (A & _); try discriminate; [reflexivity | exact A]. }
  subst e; apply state_shape in H; unfold StateShape in H; cbn [st_state st_type] in *.
  destruct s; try contradiction H; unfold getReportPart in P; cbn [st_state] in P;
    try (destruct P as [-> |(P & _)]; [|discriminate P]); cbn [lstep] in S.
  - destruct H as [-> ->]; destruct g; cbn in S; try discriminate S; reflexivity.
  - destruct H as [H Ln]; destruct g; cbn in S; try discriminate S; cbn; try (split; [eauto|]; intros [X _]; discriminate X).
    destruct t; cbn in S; try discriminate S; cbn; inversion H; subst; try discriminate Ln; auto.
  - destruct H as [H Ln]; destruct g; cbn in S; try discriminate S; cbn; (split; [eauto|]; intros [_ [-> | ->]]; discriminate Ln).
  - destruct H as (h & -> & H); destruct g; cbn in S; try discriminate S; cbn; eauto; destruct t; cbn in S; try discriminate S; cbn; eauto.
  - destruct H as (h & -> & H & N); destruct t; [| congruence |].
    + specialize (P' eq_refl eq_refl); subst p; destruct g; cbn in S; try discriminate S; cbn; eauto.
    + destruct P as [-> |(_ & P & _)]; [|discriminate P].
      destruct H as [[_ H]|H]; [discriminate H|].
      destruct g; cbn in S; try discriminate S; cbn; eauto.
  - destruct H as [-> (h & -> & H)]; destruct g; cbn in S; try discriminate S; cbn; eauto.
  - destruct H as [-> H]; destruct g; cbn in S; try discriminate S; cbn; eauto.
  - destruct H as [-> (l' & ->)]; destruct g; cbn in S; try discriminate S; cbn; repeat split; auto; apply in_or_app; cbn; auto.
  - destruct H as [-> [H1 H2]]; destruct g; cbn in S; try discriminate S; cbn; auto.
  - destruct g; cbn in S; discriminate S.
  - destruct H as [-> [H1 H2]]; destruct g; cbn in S; try discriminate S; cbn; auto.
  - destruct g; cbn; eauto.
  - destruct H as [-> (l' & -> & _)]; destruct g; cbn; eauto.
Qed.

(** ** The result *)
Lemma placed_cases : forall st p, placed st p ->
  (p = getReportPart st \/ (st_state st = St_TIME_SPAN /\ st_type st = RT_UNKNOWN /\ p = RP_METAR))
  /\ (st_state st = St_TIME_SPAN -> st_type st = RT_UNKNOWN -> p = RP_METAR).
Proof. intros [[] [] e] p H; cbn in H; subst p; cbn; split; auto; intros; discriminate. Qed.

Inductive Outcome (r : ParseResult) : Prop :=
| Out_run : forall st, lrun Status_init (labels r) = Some st ->
    md_type (pr_metadata r) = st_type st -> md_error (pr_metadata r) = st_error (finalTransition st) -> Outcome r
| Out_large : md_error (pr_metadata r) = RE_REPORT_TOO_LARGE -> Outcome r
| Out_error : forall l x st, labels r = (l ++ [x])%list -> lrun Status_init l = Some st -> lstep st x = None ->
    md_error (pr_metadata r) = lerror st x -> placed st (fst x) -> Outcome r.

Lemma outcome : forall sgn report limit r, parse sgn report limit = Ok r -> Outcome r.
Proof.
  intros sgn report limit r E; destruct (parse_counted _ _ _ _ E) as (rest & p & T & S & R & Ty & Er & Ee & F).
  pose proof (tracked_steps _ _ _ S F) as Tp; pose proof (steps_inv _ _ _ S) as Ip.
  destruct (isError (ps_status p)) eqn:Ep.
  - assert (Ef : finalTransition (ps_status p) = ps_status p).
    { unfold finalTransition; rewrite (error_state _ _ _ S Ep); reflexivity. }
    rewrite Ef in Er.
    destruct (ReportError_beq (st_error (ps_status p)) RE_REPORT_TOO_LARGE) eqn:B.
    + apply internal_ReportError_dec_bl in B; apply Out_large; congruence.
    + assert (N : st_error (ps_status p) <> RE_REPORT_TOO_LARGE) by (intros X; rewrite X in B; discriminate B).
      destruct (tr_err _ Tp Ep N) as (i & l & st & G & A & Nr & Rn & Ls & Pl & Le).
      apply (Out_error r (map label_of (rev l)) (label_of i) st); auto.
      * unfold labels; rewrite (end_active p r i l); auto; [cbn [rev]; apply map_app | apply Ip].
      * congruence.
  - apply (Out_run r (ps_status p)); auto.
    rewrite <- (tr_ok _ Tp Ep); destruct (end_shape _ _ _ _ S F Ee) as [_ Vr].
    unfold labels; rewrite <- (rev_involutive (pr_groups r)); fold (run (rev (pr_groups r))); apply run_V; exact Vr.
Qed.

Lemma lstep_part : forall st x, lstep st x = None -> st_error st = RE_NONE -> st_state st <> St_ERROR ->
  placed st (fst x) -> lerror st x <> RE_NONE /\ lerror st x <> RE_UNEXPECTED_REPORT_END /\ lerror st x <> RE_EMPTY_REPORT
    /\ lerror st x <> RE_REPORT_TOO_LARGE.
Proof.
  intros [s t e] [p g] H E N P; cbn in E, N, P; subst e; destruct s; try congruence; cbn in P; subst;
    destruct g; cbn in H |- *; try discriminate H; try (repeat split; discriminate);
    destruct t; cbn in *; subst; try discriminate H; repeat split; discriminate.
Qed.
Lemma final_none : forall st, st_error st = RE_NONE -> st_state st <> St_ERROR ->
  (st_error (finalTransition st) = RE_NONE <-> final (st_state st) = true)
  /\ (st_error (finalTransition st) = RE_EMPTY_REPORT <-> st_state st = St_REPORT_TYPE_OR_LOCATION)
  /\ (st_error (finalTransition st) = RE_UNEXPECTED_REPORT_END <-> (final (st_state st) = false /\ st_state st <> St_REPORT_TYPE_OR_LOCATION))
  /\ st_error (finalTransition st) <> RE_REPORT_TOO_LARGE.
Proof.
  intros [s t e] E N; cbn in E, N; subst e; destruct s; try congruence; cbn; repeat split; try discriminate; try tauto;
    try (intros [X Y]; congruence); try (intros; discriminate).
Qed.
Lemma lrun_good : forall l st, lrun Status_init l = Some st -> st_error st = RE_NONE /\ st_state st <> St_ERROR.
Proof. intros l st H; destruct (lrun_state _ _ _ H) as (A & B & _); try discriminate; [reflexivity | auto]. Qed.

Lemma not_viable_snoc : forall l x st, lrun Status_init l = Some st -> lstep st x = None -> ~ Viable (l ++ [x])%list.
Proof.
  intros l x st H S V; apply viable_iff in V; destruct V as (q & V); rewrite lrun_snoc, H, S in V; discriminate V.
Qed.
Lemma well_formed_viable : forall t l, WellFormed t l -> Viable l.
Proof. intros t l H; exists t, []; rewrite app_nil_r; exact H. Qed.
Lemma well_formed_type : forall t t' l, WellFormed t l -> WellFormed t' l -> t = t'.
Proof.
  intros t t' l H H'; apply ends_well_formed in H; apply ends_well_formed in H'.
  destruct H as (q & E & _ & <-), H' as (q' & E' & _ & <-); congruence.
Qed.

Lemma error_free_iff : forall sgn report limit r, parse sgn report limit = Ok r ->
  (md_error (pr_metadata r) = RE_NONE
   <-> (WellFormed (md_type (pr_metadata r)) (labels r)
        /\ ~ (words_of_result r <> [] /\ (limit <= groups_counted r)%nat))).
Proof.
  intros sgn report limit r E; rewrite <- (limit_exact _ _ _ _ E).
  destruct (outcome _ _ _ _ E) as [st R Ty Er|Er|l x st La R S Er P].
  - destruct (lrun_good _ _ R) as [A B]; destruct (final_none st A B) as (F1 & F2 & F3 & F4); rewrite Er; split.
    + intros X; split; [|congruence]; apply ends_well_formed; exists st; repeat split; [exact R | apply F1, X | auto].
    + intros [X _]; apply ends_well_formed in X; destruct X as (q & Eq & Fq & _); rewrite R in Eq; injection Eq as <-.
      apply F1; exact Fq.
  - rewrite Er; split; [discriminate | intros [_ X]; exfalso; apply X; reflexivity].
  - destruct (lrun_good _ _ R) as [A B]; destruct (lstep_part _ _ S A B P) as (F1 & F2 & F3 & F4); rewrite Er; split; [congruence|].
    intros [X _]; exfalso; apply well_formed_viable in X; rewrite La in X; revert X; eapply not_viable_snoc; eassumption.
Qed.
Lemma any_type_iff : forall sgn report limit r, parse sgn report limit = Ok r ->
  ((exists t, WellFormed t (labels r)) <-> WellFormed (md_type (pr_metadata r)) (labels r))
  \/ md_error (pr_metadata r) = RE_REPORT_TOO_LARGE.
Proof.
  intros sgn report limit r E; destruct (outcome _ _ _ _ E) as [st R Ty Er|Er|l x st La R S Er P]; [left | right; exact Er | left].
  - split; [|eauto]; intros (t & X); pose proof X as X0; apply ends_well_formed in X; destruct X as (q & Eq & _ & Tq).
    rewrite R in Eq; injection Eq as <-; congruence.
  - split; [|eauto]; intros (t & X); exfalso; apply well_formed_viable in X; rewrite La in X; revert X; eapply not_viable_snoc; eassumption.
Qed.
Lemma error_free_iff_any : forall sgn report limit r, parse sgn report limit = Ok r ->
  (md_error (pr_metadata r) = RE_NONE
   <-> ((exists t, WellFormed t (labels r)) /\ ~ (words_of_result r <> [] /\ (limit <= groups_counted r)%nat))).
Proof.
  intros sgn report limit r E; rewrite (error_free_iff _ _ _ _ E); destruct (any_type_iff _ _ _ _ E) as [X|X]; [rewrite X; reflexivity|].
  apply (limit_exact _ _ _ _ E) in X; tauto.
Qed.

Lemma first_error : forall sgn report limit r, parse sgn report limit = Ok r ->
  match md_error (pr_metadata r) with
  | RE_NONE => True
  | RE_REPORT_TOO_LARGE => True
  | RE_EMPTY_REPORT => labels r = []
  | RE_UNEXPECTED_REPORT_END => labels r <> [] /\ Viable (labels r) /\ forall t, ~ WellFormed t (labels r)
  | e => exists l x, labels r = (l ++ [x])%list /\ Viable l /\ ~ Viable (l ++ [x])%list /\ ErrorAt l x e
  end.
Proof.
  intros sgn report limit r E; destruct (outcome _ _ _ _ E) as [st R Ty Er|Er|l x st La R S Er P].
  - destruct (lrun_good _ _ R) as [A B]; destruct (final_none st A B) as (F1 & F2 & F3 & F4).
    pose proof (state_shape _ _ R) as Sh; unfold StateShape in Sh.
    assert (Vi : Viable (labels r)) by (apply viable_iff; eauto).
    assert (Nw : final (st_state st) = false -> forall t, ~ WellFormed t (labels r)).
    { intros Fn t W; apply ends_well_formed in W; destruct W as (q & Eq & Fq & _); rewrite R in Eq; injection Eq as <-; congruence. }
    assert (Nl : st_state st <> St_REPORT_TYPE_OR_LOCATION -> labels r <> []).
    { intros N X; rewrite X in R; injection R as <-; apply N; reflexivity. }
    rewrite Er; destruct (st_error (finalTransition st)) eqn:Ef; auto.
    + destruct (st_state st) eqn:Ss; try (destruct F2 as [F2 _]; specialize (F2 eq_refl); congruence); apply Sh.
    + exfalso; revert Ef A; destruct st as [[] t e]; cbn; intros X ->; discriminate X.
    + exfalso; revert Ef A; destruct st as [[] t e]; cbn; intros X ->; discriminate X.
    + exfalso; revert Ef A; destruct st as [[] t e]; cbn; intros X ->; discriminate X.
    + exfalso; revert Ef A; destruct st as [[] t e]; cbn; intros X ->; discriminate X.
    + destruct F3 as [F3 _]; destruct (F3 eq_refl) as [F3a F3b]; auto.
    + exfalso; revert Ef A; destruct st as [[] t e]; cbn; intros X ->; discriminate X.
    + exfalso; revert Ef A; destruct st as [[] t e]; cbn; intros X ->; discriminate X.
    + exfalso; revert Ef A; destruct st as [[] t e]; cbn; intros X ->; discriminate X.
    + exfalso; revert Ef A; destruct st as [[] t e]; cbn; intros X ->; discriminate X.
    + exfalso; revert Ef A; destruct st as [[] t e]; cbn; intros X ->; discriminate X.
    + exfalso; revert Ef A; destruct st as [[] t e]; cbn; intros X ->; discriminate X.
  - rewrite Er; exact I.
  - destruct (lrun_good _ _ R) as [A B]; destruct (lstep_part _ _ S A B P) as (F1 & F2 & F3 & F4).
    destruct (placed_cases _ _ P) as [P1 P2]; destruct x as [p g].
    pose proof (error_at l st (p, g) p g R eq_refl S P1 P2) as EA; rewrite <- Er in EA, F1, F2, F3, F4.
    assert (G : exists l x, labels r = (l ++ [x])%list /\ Viable l /\ ~ Viable (l ++ [x])%list /\ ErrorAt l x (md_error (pr_metadata r))).
    { exists l, (p, g); repeat split; auto; [apply viable_iff; eauto | eapply not_viable_snoc; eassumption]. }
    destruct (md_error (pr_metadata r)); try exact G; congruence.
Qed.
Lemma empty_report_iff : forall sgn report limit r, parse sgn report limit = Ok r ->
  (md_error (pr_metadata r) = RE_EMPTY_REPORT <-> report_groups sgn report = []).
Proof.
  intros sgn report limit r E; destruct (parse_counted _ _ _ _ E) as (rest & p & T & S & R & Ty & Er & Ee & F).
  pose proof (counted_steps _ _ _ S) as C; rewrite Er; split.
  - intros X.
    assert (Ep : isError (ps_status p) = false).
    { destruct (isError (ps_status p)) eqn:Ep; [|reflexivity]; exfalso.
      pose proof (tracked_steps _ _ _ S F) as Tp.
      assert (Ef : finalTransition (ps_status p) = ps_status p).
      { unfold finalTransition; rewrite (error_state _ _ _ S Ep); reflexivity. }
      rewrite Ef in X; destruct (tr_err _ Tp Ep) as (i & l & st & _ & _ & _ & Rn & Ls & Pl & Le); [congruence|].
      destruct (lrun_good _ _ Rn) as [A B]; destruct (lstep_part _ _ Ls A B Pl) as (_ & _ & F3 & _); congruence. }
    destruct R as [-> |R]; [|congruence]; rewrite T, app_nil_r.
    destruct (words_of_result r) eqn:Wr; [reflexivity|]; exfalso; apply (cn_state _ _ _ C); [discriminate|].
    clear Er; apply not_error in Ep; destruct (ps_status p) as [[] t e]; cbn in *; subst e; try discriminate X; try discriminate Ep; reflexivity.
  - intros X; rewrite T in X; apply app_eq_nil in X; destruct X as [X _].
    rewrite (cn_first _ _ _ C X); reflexivity.
Qed.

Lemma steps_step_all : forall limit used p, Steps limit used p -> forall rest,
  step_all limit (used ++ rest)%list ps_init = step_all limit rest p.
Proof.
  intros limit used p H; induction H as [|used p s q H IH Er E]; intros rest; [reflexivity|].
  rewrite <- app_assoc, IH; cbn [app step_all]; rewrite Er, E; reflexivity.
Qed.
Lemma rest_ignored : forall sgn report limit r, parse sgn report limit = Ok r ->
  md_error (pr_metadata r) <> RE_NONE -> md_error (pr_metadata r) <> RE_UNEXPECTED_REPORT_END ->
  md_error (pr_metadata r) <> RE_EMPTY_REPORT ->
  forall sgn' report' rest', report_groups sgn' report' = (words_of_result r ++ rest')%list ->
  parse sgn' report' limit = Ok r.
Proof.
  intros sgn report limit r E N1 N2 N3 sgn' report' rest' H.
  destruct (parse_counted _ _ _ _ E) as (rest & p & T & S & R & Ty & Er & Ee & F).
  assert (Ep : isError (ps_status p) = true).
  { destruct (isError (ps_status p)) eqn:Ep; [reflexivity|]; exfalso; apply not_error in Ep.
    rewrite Er in N1, N2, N3; destruct (ps_status p) as [[] t e]; cbn in *; subst e; congruence. }
  rewrite parse_eq_parse_groups; unfold parse_groups; rewrite H, (steps_step_all _ _ _ S).
  assert (X : step_all limit rest' p = Ok p) by (destruct rest'; cbn; [|rewrite Ep]; reflexivity).
  rewrite X; exact Ee.
Qed.
Lemma error_function_of_labels : forall sgn report limit r sgn' report' limit' r',
  parse sgn report limit = Ok r -> parse sgn' report' limit' = Ok r' -> labels r = labels r' ->
  md_error (pr_metadata r) <> RE_REPORT_TOO_LARGE -> md_error (pr_metadata r') <> RE_REPORT_TOO_LARGE ->
  md_error (pr_metadata r) = md_error (pr_metadata r').
Proof.
  intros sgn report limit r sgn' report' limit' r' E E' L N N'.
  destruct (outcome _ _ _ _ E) as [st R Ty Er|Er|l x st La R S Er P]; [|contradiction|];
  destruct (outcome _ _ _ _ E') as [st' R' Ty' Er'|Er'|l' x' st' La' R' S' Er' P']; try contradiction.
  - rewrite L, R' in R; injection R as ->; congruence.
  - exfalso; rewrite L, La', lrun_snoc, R', S' in R; discriminate R.
  - exfalso; rewrite <- L, La, lrun_snoc, R, S in R'; discriminate R'.
  - rewrite La, La' in L; apply app_inj_tail in L; destruct L as [-> ->]; congruence.
Qed.
