(** The status of the parser and the grammar of reports. *)
From Verif Require Import Prim Regex Float Values Weather Groups1 Groups2 Groups3 Groups4 Parser Lib
  SpecTokens SpecReads Pf_Tokens SpecText SpecLimit SpecGrammar Pf_Ok SpecReach Pf_Total Pf_Steps Pf_Kinds
  Pf_View Pf_Fresh Pf_Shape Pf_Limit.

(** ** An automaton on labels *)
Definition lstep (st : Status) (x : label) : option Status :=
  let '(p, g) := x in
  match st with
  | mkStatus St_TIME_SPAN RT_UNKNOWN _ =>
    match p, g with
    | RP_HEADER, SG_TIME_SPAN => Some (mkStatus St_REPORT_BODY_BEGIN_TAF RT_TAF RE_NONE)
    | RP_HEADER, SG_NIL => Some (mkStatus St_NIL RT_UNKNOWN RE_NONE)
    | RP_METAR, _ =>
      let q := transition (mkStatus St_REPORT_BODY_BEGIN_METAR_REPEAT_PARSE RT_METAR RE_NONE) g in
      if isError q then None else Some q
    | _, _ => None
    end
  | _ =>
    if ReportPart_beq p (getReportPart st) then
      let q := transition st g in if isError q then None else Some q
    else None
  end.
Fixpoint lrun (st : Status) (l : list label) : option Status :=
  match l with
  | [] => Some st
  | x :: l' => match lstep st x with Some q => lrun q l' | None => None end
  end.
Lemma lrun_app : forall l m st, lrun st (l ++ m)%list = match lrun st l with Some q => lrun q m | None => None end.
Proof. induction l as [|x l IH]; intros m st; cbn; [reflexivity|]; destruct (lstep st x); auto. Qed.

Definition final (s : State) : bool :=
  match s with
  | St_REPORT_BODY_METAR | St_REPORT_BODY_TAF | St_REMARK_METAR | St_REMARK_TAF | St_NIL | St_CNL => true
  | _ => false
  end.
(** [l] leads from [st] to a final state with type [t] *)
Definition ends (st : Status) (t : ReportType) (l : list label) : Prop :=
  exists q, lrun st l = Some q /\ final (st_state q) = true /\ st_type q = t.

Lemma ends_nil : forall st t, ends st t [] <-> (final (st_state st) = true /\ st_type st = t).
Proof. intros st t; split; [intros (q & E & F); injection E as <-; exact F | intros F; exists st; auto]. Qed.
Lemma ends_cons : forall st t x l, ends st t (x :: l) <-> exists q, lstep st x = Some q /\ ends q t l.
Proof.
  intros st t x l; unfold ends; cbn [lrun]; destruct (lstep st x) as [q|]; split.
  - intros E; exists q; auto.
  - intros (q' & E & F); injection E as <-; exact F.
  - intros (q & E & _); discriminate E.
  - intros (q & E & _); discriminate E.
Qed.

Notation M s := (mkStatus s RT_METAR RE_NONE).
Notation T s := (mkStatus s RT_TAF RE_NONE).
Notation U s := (mkStatus s RT_UNKNOWN RE_NONE).

Lemma part_cons : forall p ex x l, part_without p ex (x :: l) <-> ((fst x = p /\ ~ In (snd x) ex) /\ part_without p ex l).
Proof. intros; unfold part_without; split; [intros H; inversion H; auto | intros [A B]; constructor; auto]. Qed.

Ltac lab x := destruct x as [[] []]; cbn.
Ltac nin := cbn; intros X; repeat (destruct X as [X|X]; [discriminate X|]); destruct X.

Lemma ends_remark_metar : forall t l, ends (M St_REMARK_METAR) t l <-> (t = RT_METAR /\ part_without RP_RMK [] l).
Proof.
  intros t; induction l as [|x l IH]; [rewrite ends_nil; cbn; split; [intros [_ <-]; split; auto; constructor | intros [-> _]; auto]|].
  rewrite ends_cons, part_cons; split.
  - intros (q & E & F); destruct x as [[] g]; cbn in E; try discriminate E; injection E as <-.
    apply IH in F; destruct F as [-> F]; repeat split; auto; cbn; auto.
  - intros (-> & [P _] & F); exists (M St_REMARK_METAR); split; [destruct x as [p g]; cbn in P; subst p; reflexivity|].
    apply IH; auto.
Qed.
Lemma ends_remark_taf : forall t l, ends (T St_REMARK_TAF) t l
  <-> (t = RT_TAF /\ part_without RP_RMK [SG_MAINTENANCE_INDICATOR] l).
Proof.
  intros t; induction l as [|x l IH]; [rewrite ends_nil; cbn; split; [intros [_ <-]; split; auto; constructor | intros [-> _]; auto]|].
  rewrite ends_cons, part_cons; split.
  - intros (q & E & F); destruct x as [[] []]; cbn in E; try discriminate E; injection E as <-;
      apply IH in F; destruct F as [-> F]; repeat split; auto; nin.
  - intros (-> & [P N] & F); exists (T St_REMARK_TAF); split; [|apply IH; auto].
    destruct x as [p g]; cbn in P; subst p; destruct g; try reflexivity; exfalso; apply N; cbn; auto.
Qed.
Lemma ends_body_metar : forall t l, ends (M St_REPORT_BODY_METAR) t l
  <-> (t = RT_METAR /\ exists b m, l = (b ++ m)%list /\ part_without RP_METAR [SG_NIL; SG_CNL; SG_RMK] b /\ Remarks RP_METAR [] m).
Proof.
  intros t; induction l as [|x l IH].
  { rewrite ends_nil; cbn; split; [intros [_ <-]; split; auto; exists [], []; repeat split; constructor | intros [-> _]; auto]. }
  rewrite ends_cons; split.
  - intros (q & E & F).
    assert (C : (x = (RP_METAR, SG_RMK) /\ q = M St_REMARK_METAR)
                \/ (q = M St_REPORT_BODY_METAR /\ fst x = RP_METAR /\ ~ In (snd x) [SG_NIL; SG_CNL; SG_RMK])).
    { destruct x as [[] []]; cbn in E; try discriminate E; injection E as <-; auto;
        right; split; auto; split; auto; nin. }
    destruct C as [[-> ->]|(-> & P & N)].
    + apply ends_remark_metar in F; destruct F as [-> F]; split; auto.
      exists [], ((RP_METAR, SG_RMK) :: l); repeat split; constructor; exact F.
    + apply IH in F; destruct F as (-> & b & m & -> & Pb & Rm); split; auto.
      exists (x :: b), m; repeat split; auto; apply part_cons; auto.
  - intros (-> & b & m & E & Pb & Rm); destruct b as [|y b]; cbn [app] in E.
    + subst m; inversion Rm as [|l' Pl]; subst; exists (M St_REMARK_METAR); split; [reflexivity|].
      apply ends_remark_metar; auto.
    + injection E as <- ->; apply part_cons in Pb; destruct Pb as [[P N] Pb].
      exists (M St_REPORT_BODY_METAR); split; [|apply IH; split; eauto].
      destruct x as [p g]; cbn in P; subst p; destruct g; try reflexivity; exfalso; apply N; cbn; auto.
Qed.
Lemma ends_body_taf : forall t l, ends (T St_REPORT_BODY_TAF) t l
  <-> (t = RT_TAF /\ exists b m, l = (b ++ m)%list
       /\ part_without RP_TAF [SG_NIL; SG_CNL; SG_RMK; SG_MAINTENANCE_INDICATOR] b
       /\ Remarks RP_TAF [SG_MAINTENANCE_INDICATOR] m).
Proof.
  intros t; induction l as [|x l IH].
  { rewrite ends_nil; cbn; split; [intros [_ <-]; split; auto; exists [], []; repeat split; constructor | intros [-> _]; auto]. }
  rewrite ends_cons; split.
  - intros (q & E & F).
    assert (C : (x = (RP_TAF, SG_RMK) /\ q = T St_REMARK_TAF)
                \/ (q = T St_REPORT_BODY_TAF /\ fst x = RP_TAF /\ ~ In (snd x) [SG_NIL; SG_CNL; SG_RMK; SG_MAINTENANCE_INDICATOR])).
    { destruct x as [[] []]; cbn in E; try discriminate E; injection E as <-; auto;
        right; split; auto; split; auto; nin. }
    destruct C as [[-> ->]|(-> & P & N)].
    + apply ends_remark_taf in F; destruct F as [-> F]; split; auto.
      exists [], ((RP_TAF, SG_RMK) :: l); repeat split; constructor; exact F.
    + apply IH in F; destruct F as (-> & b & m & -> & Pb & Rm); split; auto.
      exists (x :: b), m; repeat split; auto; apply part_cons; auto.
  - intros (-> & b & m & E & Pb & Rm); destruct b as [|y b]; cbn [app] in E.
    + subst m; inversion Rm as [|l' Pl]; subst; exists (T St_REMARK_TAF); split; [reflexivity|].
      apply ends_remark_taf; auto.
    + injection E as <- ->; apply part_cons in Pb; destruct Pb as [[P N] Pb].
      exists (T St_REPORT_BODY_TAF); split; [|apply IH; split; eauto].
      destruct x as [p g]; cbn in P; subst p; destruct g; try reflexivity; exfalso; apply N; cbn; auto 6.
Qed.
Lemma ends_done : forall s ty t l, s = St_NIL \/ s = St_CNL -> (ends (mkStatus s ty RE_NONE) t l <-> (t = ty /\ l = [])).
Proof.
  intros s ty t l D; destruct l as [|x l].
  - rewrite ends_nil; cbn; split; [intros [_ <-]; auto | intros [-> _]; destruct D as [-> | ->]; auto].
  - split; [|intros [_ X]; discriminate X]; rewrite ends_cons; intros (q & E & _); exfalso.
    destruct D as [-> | ->]; destruct x as [[] []]; destruct ty; discriminate E.
Qed.

(** The content of a METAR, typed or not: [st] is the state after the report time *)
Lemma metar_content : forall st t l,
  (forall g, lstep st (RP_METAR, g) = let q := transition (M St_REPORT_BODY_BEGIN_METAR) g in if isError q then None else Some q) ->
  final (st_state st) = false ->
  (ends st t l /\ (match l with (RP_METAR, _) :: _ => True | _ => False end)) <-> (t = RT_METAR /\ MetarContent l).
Proof.
  intros st t l Hs Hf; split.
  - intros [E A]; destruct l as [|[[] g] l]; try contradiction A.
    rewrite ends_cons in E; destruct E as (q & E & F); rewrite Hs in E.
    assert (C : (g = SG_NIL /\ q = M St_NIL) \/ (g = SG_RMK /\ q = M St_REMARK_METAR)
                \/ (q = M St_REPORT_BODY_METAR /\ ~ In g [SG_NIL; SG_CNL; SG_RMK])).
    { destruct g; cbn in E; try discriminate E; injection E as <-; auto; right; right; split; auto; nin. }
    destruct C as [[-> ->]|[[-> ->]|(-> & N)]].
    + apply ends_done in F; [|auto]; destruct F as [-> ->]; split; [reflexivity | constructor].
    + apply ends_remark_metar in F; destruct F as [-> F]; split; [reflexivity|].
      apply (Metar_body [] ((RP_METAR, SG_RMK) :: l)); [constructor | constructor; exact F | discriminate].
    + apply ends_body_metar in F; destruct F as (-> & b & m & -> & Pb & Rm); split; [reflexivity|].
      apply (Metar_body ((RP_METAR, g) :: b) m); [apply part_cons; auto | exact Rm | discriminate].
  - intros [-> C]; destruct C as [|b m Pb Rm N].
    + split; [|exact I]; apply ends_cons; exists (M St_NIL); split; [apply Hs | apply ends_done; auto].
    + destruct b as [|[p g] b]; cbn [app] in *.
      * destruct Rm as [|l Pl]; [congruence|]; split; [|exact I].
        apply ends_cons; exists (M St_REMARK_METAR); split; [apply Hs | apply ends_remark_metar; auto].
      * apply part_cons in Pb; destruct Pb as [[P Ng] Pb]; cbn in P; subst p; split; [|exact I].
        apply ends_cons; exists (M St_REPORT_BODY_METAR); split.
        -- rewrite Hs; destruct g; try reflexivity; exfalso; apply Ng; cbn; auto.
        -- apply ends_body_metar; split; eauto.
Qed.
Lemma taf_content : forall t l, ends (T St_REPORT_BODY_BEGIN_TAF) t l <-> (t = RT_TAF /\ TafContent l).
Proof.
  intros t l; split.
  - intros E; destruct l as [|[p g] l]; [apply ends_nil in E; destruct E as [E _]; discriminate E|].
    rewrite ends_cons in E; destruct E as (q & E & F).
    assert (p = RP_TAF) as -> by (destruct p; cbn in E; try discriminate E; reflexivity).
    assert (C : (g = SG_NIL /\ q = T St_NIL) \/ (g = SG_CNL /\ q = T St_CNL) \/ (g = SG_RMK /\ q = T St_REMARK_TAF)
                \/ (q = T St_REPORT_BODY_TAF /\ ~ In g [SG_NIL; SG_CNL; SG_RMK; SG_MAINTENANCE_INDICATOR])).
    { destruct g; cbn in E; try discriminate E; injection E as <-; auto; right; right; right; split; auto; nin. }
    destruct C as [[-> ->]|[[-> ->]|[[-> ->]|(-> & N)]]].
    + apply ends_done in F; [|auto]; destruct F as [-> ->]; split; [reflexivity | constructor].
    + apply ends_done in F; [|auto]; destruct F as [-> ->]; split; [reflexivity | constructor].
    + apply ends_remark_taf in F; destruct F as [-> F]; split; [reflexivity|].
      apply (Taf_body [] ((RP_TAF, SG_RMK) :: l)); [constructor | constructor; exact F | discriminate].
    + apply ends_body_taf in F; destruct F as (-> & b & m & -> & Pb & Rm); split; [reflexivity|].
      apply (Taf_body ((RP_TAF, g) :: b) m); [apply part_cons; auto | exact Rm | discriminate].
  - intros [-> C]; destruct C as [| |b m Pb Rm N].
    + apply ends_cons; exists (T St_NIL); split; [reflexivity | apply ends_done; auto].
    + apply ends_cons; exists (T St_CNL); split; [reflexivity | apply ends_done; auto].
    + destruct b as [|[p g] b]; cbn [app] in *.
      * destruct Rm as [|l Pl]; [congruence|].
        apply ends_cons; exists (T St_REMARK_TAF); split; [reflexivity | apply ends_remark_taf; auto].
      * apply part_cons in Pb; destruct Pb as [[P Ng] Pb]; cbn in P; subst p.
        apply ends_cons; exists (T St_REPORT_BODY_TAF); split.
        -- destruct g; try reflexivity; exfalso; apply Ng; cbn; auto 6.
        -- apply ends_body_taf; split; eauto.
Qed.
Lemma metar_content_typed : forall t l, ends (M St_REPORT_BODY_BEGIN_METAR) t l <-> (t = RT_METAR /\ MetarContent l).
Proof.
  intros t l; rewrite <- (metar_content (M St_REPORT_BODY_BEGIN_METAR) t l); [|reflexivity | reflexivity].
  split; [|tauto]; intros E; split; [exact E|].
  destruct l as [|[[] g] l]; auto; [apply ends_nil in E; destruct E as [E _]; discriminate E | ..];
    apply ends_cons in E; destruct E as (q & E & _); discriminate E.
Qed.

(** Opens [ends st t (x :: l)] for a known state *)
Ltac step1 H := apply ends_cons in H; let q := fresh "q" in let E := fresh "E" in destruct H as (q & E & H).

Lemma after_metar : forall t l, ends (M St_REPORT_TIME) t l <-> (t = RT_METAR /\ AfterLocation RT_METAR true l).
Proof.
  intros t l; split.
  - intros H; destruct l as [|x l]; [apply ends_nil in H; destruct H as [H _]; discriminate H|].
    step1 H; destruct x as [[] []]; cbn in E; try discriminate E; injection E as <-.
    + apply metar_content_typed in H; destruct H as [-> H]; split; [reflexivity | constructor; exact H].
    + apply ends_done in H; [|auto]; destruct H as [-> ->]; split; [reflexivity | constructor].
  - intros [-> H]; inversion H as [| l' C | | | | | | | |]; subst.
    + apply ends_cons; exists (M St_NIL); split; [reflexivity | apply ends_done; auto].
    + apply ends_cons; exists (M St_REPORT_BODY_BEGIN_METAR); split; [reflexivity | apply metar_content_typed; auto].
Qed.
Lemma after_taf : forall t l, ends (T St_REPORT_TIME) t l <-> (t = RT_TAF /\ AfterLocation RT_TAF true l).
Proof.
  intros t l; split.
  - intros H; destruct l as [|x l]; [apply ends_nil in H; destruct H as [H _]; discriminate H|].
    step1 H; destruct x as [[] []]; cbn in E; try discriminate E; injection E as <-.
    + destruct l as [|x l]; [apply ends_nil in H; destruct H as [H _]; discriminate H|].
      step1 H; destruct x as [[] []]; cbn in E; try discriminate E; injection E as <-.
      * apply taf_content in H; destruct H as [-> H]; split; [reflexivity | constructor; exact H].
      * apply ends_done in H; [|auto]; destruct H as [-> ->]; split; [reflexivity | constructor].
    + apply taf_content in H; destruct H as [-> H]; split; [reflexivity | constructor; exact H].
    + apply ends_done in H; [|auto]; destruct H as [-> ->]; split; [reflexivity | constructor].
  - intros [-> H]; inversion H as [| | | | l' C | l' C | | | |]; subst.
    + apply ends_cons; exists (T St_NIL); split; [reflexivity | apply ends_done; auto].
    + apply ends_cons; exists (T St_TIME_SPAN); split; [reflexivity|].
      apply ends_cons; exists (T St_NIL); split; [reflexivity | apply ends_done; auto].
    + apply ends_cons; exists (T St_TIME_SPAN); split; [reflexivity|].
      apply ends_cons; exists (T St_REPORT_BODY_BEGIN_TAF); split; [reflexivity | apply taf_content; auto].
    + apply ends_cons; exists (T St_REPORT_BODY_BEGIN_TAF); split; [reflexivity | apply taf_content; auto].
Qed.
Lemma after_none : forall t l, ends (U St_REPORT_TIME) t l <-> AfterLocation t false l.
Proof.
  intros t l; split.
  - intros H; destruct l as [|x l]; [apply ends_nil in H; destruct H as [H _]; discriminate H|].
    step1 H; destruct x as [[] []]; cbn in E; try discriminate E; injection E as <-.
    + destruct l as [|x l]; [apply ends_nil in H; destruct H as [H _]; discriminate H|].
      destruct x as [[] g]; try (step1 H; discriminate E).
      * step1 H; destruct g; cbn in E; try discriminate E; injection E as <-.
        -- apply taf_content in H; destruct H as [-> H]; constructor; exact H.
        -- apply ends_done in H; [|auto]; destruct H as [-> ->]; constructor.
      * assert (C : t = RT_METAR /\ MetarContent ((RP_METAR, g) :: l)).
        { apply (metar_content (U St_TIME_SPAN)); [intros []; reflexivity | reflexivity | split; [exact H | exact I]]. }
        destruct C as [-> C]; constructor; exact C.
    + apply ends_done in H; [|auto]; destruct H as [-> ->]; constructor.
  - intros H; inversion H as [| | | | | | | | l' C | l' C]; subst.
    + apply ends_cons; exists (U St_NIL); split; [reflexivity | apply ends_done; auto].
    + apply ends_cons; exists (U St_TIME_SPAN); split; [reflexivity|].
      apply ends_cons; exists (U St_NIL); split; [reflexivity | apply ends_done; auto].
    + apply ends_cons; exists (U St_TIME_SPAN); split; [reflexivity|].
      apply (metar_content (U St_TIME_SPAN)); [intros []; reflexivity | reflexivity | auto].
    + apply ends_cons; exists (U St_TIME_SPAN); split; [reflexivity|].
      apply ends_cons; exists (T St_REPORT_BODY_BEGIN_TAF); split; [reflexivity | apply taf_content; auto].
Qed.

Lemma typed_metar_location : forall t l h, ReportTypeOf RT_METAR h -> 
  (exists q, lrun Status_init h = Some q /\ (ends q t (head SG_LOCATION :: l) <-> (t = RT_METAR /\ AfterLocation RT_METAR true l))).
Proof.
  intros t l h H; inversion H; subst; eexists; (split; [reflexivity|]); rewrite ends_cons; split;
    try (intros (q & E & F); injection E as <-; apply after_metar; exact F);
    intros F; exists (M St_REPORT_TIME); (split; [reflexivity | apply after_metar; exact F]).
Qed.
Lemma typed_taf_location : forall t l h, ReportTypeOf RT_TAF h -> 
  (exists q, lrun Status_init h = Some q /\ (ends q t (head SG_LOCATION :: l) <-> (t = RT_TAF /\ AfterLocation RT_TAF true l))).
Proof.
  intros t l h H; inversion H; subst; eexists; (split; [reflexivity|]); rewrite ends_cons; split;
    try (intros (q & E & F); injection E as <-; apply after_taf; exact F);
    intros F; exists (T St_REPORT_TIME); (split; [reflexivity | apply after_taf; exact F]).
Qed.

(** The automaton accepts exactly the well-formed reports. *)
Lemma ends_well_formed : forall t l, ends Status_init t l <-> WellFormed t l.
Proof.
  intros t l; split.
  - intros H; unfold Status_init in H.
    destruct l as [|x l]; [apply ends_nil in H; destruct H as [H _]; discriminate H|].
    assert (L1 : forall s ty l0, (s = St_LOCATION \/ s = St_CORRECTION /\ hd_error l0 = Some (head SG_LOCATION)) ->
      ends (mkStatus s ty RE_NONE) t l0 -> exists l1, l0 = head SG_LOCATION :: l1 /\ ends (mkStatus St_REPORT_TIME ty RE_NONE) t l1).
    { intros s ty l0 D H0; destruct l0 as [|y l1].
      - apply ends_nil in H0; destruct H0 as [H0 _]; destruct D as [-> |[_ D]]; discriminate.
      - step1 H0; exists l1; destruct D as [-> |[-> D]].
        + destruct y as [[] []]; cbn in E; try discriminate E; injection E as <-; auto.
        + injection D as ->; injection E as <-; auto. }
    step1 H; destruct x as [[] []]; cbn in E; try discriminate E; injection E as <-.
    + (* METAR *)
      destruct l as [|y l]; [apply ends_nil in H; destruct H as [H _]; discriminate H|].
      pose proof H as H0; step1 H; destruct y as [[] []]; cbn in E; try discriminate E; injection E as <-.
      * destruct (L1 _ _ _ (or_introl eq_refl) H) as (l1 & -> & F); apply after_metar in F; destruct F as [-> F].
        apply (Wf_typed _ [head SG_METAR; head SG_COR]); [constructor | exact F].
      * apply after_metar in H; destruct H as [-> F].
        apply (Wf_typed _ [head SG_METAR]); [constructor | exact F].
    + destruct l as [|y l]; [apply ends_nil in H; destruct H as [H _]; discriminate H|].
      pose proof H as H0; step1 H; destruct y as [[] []]; cbn in E; try discriminate E; injection E as <-.
      * destruct (L1 _ _ _ (or_introl eq_refl) H) as (l1 & -> & F); apply after_metar in F; destruct F as [-> F].
        apply (Wf_typed _ [head SG_SPECI; head SG_COR]); [constructor | exact F].
      * apply after_metar in H; destruct H as [-> F].
        apply (Wf_typed _ [head SG_SPECI]); [constructor | exact F].
    + destruct l as [|y l]; [apply ends_nil in H; destruct H as [H _]; discriminate H|].
      pose proof H as H0; step1 H; destruct y as [[] []]; cbn in E; try discriminate E; injection E as <-.
      * destruct (L1 _ _ _ (or_introl eq_refl) H) as (l1 & -> & F); apply after_taf in F; destruct F as [-> F].
        apply (Wf_typed _ [head SG_TAF; head SG_COR]); [constructor | exact F].
      * destruct (L1 _ _ _ (or_introl eq_refl) H) as (l1 & -> & F); apply after_taf in F; destruct F as [-> F].
        apply (Wf_typed _ [head SG_TAF; head SG_AMD]); [constructor | exact F].
      * apply after_taf in H; destruct H as [-> F].
        apply (Wf_typed _ [head SG_TAF]); [constructor | exact F].
    + apply after_none in H; constructor; exact H.
  - intros H; destruct H as [t h l Th A|t l A].
    + assert (X : exists q, lrun Status_init h = Some q /\ ends q t (head SG_LOCATION :: l)).
      { destruct t; [inversion Th | |].
        - destruct (typed_metar_location RT_METAR l h Th) as (q & E & F); exists q; split; [exact E | apply F; auto].
        - destruct (typed_taf_location RT_TAF l h Th) as (q & E & F); exists q; split; [exact E | apply F; auto]. }
      destruct X as (q & E & q' & F & G); exists q'; rewrite lrun_app, E; auto.
    + apply ends_cons; exists (U St_REPORT_TIME); split; [reflexivity | apply after_none; exact A].
Qed.

(** ** Viable prefixes *)
Lemma lstep_none : forall st x q, lstep st x = Some q -> st_error q = RE_NONE.
Proof.
  intros [s t e] [p g] q H; cbn [lstep] in H.
  assert (Z : forall q', (if isError q' then None else Some q') = Some q -> st_error q = RE_NONE).
  { intros q' E; destruct (isError q') eqn:Er; [discriminate E|]; injection E as <-; apply not_error; exact Er. }
  destruct s; try (destruct (ReportPart_beq p _); [apply Z in H; exact H | discriminate H]).
  destruct t; try (destruct (ReportPart_beq p _); [apply Z in H; exact H | discriminate H]).
  destruct p; try discriminate H; [destruct g; try discriminate H; injection H as <-; reflexivity | apply Z in H; exact H].
Qed.
Lemma lstep_state : forall st x q, lstep st x = Some q -> st_error st = RE_NONE -> st_state st <> St_ERROR ->
  st_state q <> St_ERROR /\ st_state q <> St_REPORT_BODY_BEGIN_METAR_REPEAT_PARSE.
Proof.
  intros [s t e] [p g] q H E N; cbn in E, N; subst e.
  assert (Z : forall st g, st_error st = RE_NONE -> st_state st <> St_ERROR ->
     ~ (st_state st = St_TIME_SPAN /\ st_type st = RT_UNKNOWN) ->
     (let q := transition st g in if isError q then None else Some q) = Some q ->
     st_state q <> St_ERROR /\ st_state q <> St_REPORT_BODY_BEGIN_METAR_REPEAT_PARSE).
  { intros [s0 t0 e0] g0 E0 N0 R0; cbn in E0; subst e0; cbv zeta; destruct s0, g0; cbn; intros X; try discriminate X;
      try (injection X as <-; split; discriminate); try (exfalso; apply N0; reflexivity);
      destruct t0; cbn in X; try discriminate X; try (injection X as <-; split; discriminate);
      exfalso; apply R0; split; reflexivity. }
  pose proof (Z (mkStatus s t RE_NONE) g eq_refl N) as Z1.
  pose proof (Z (mkStatus St_REPORT_BODY_BEGIN_METAR_REPEAT_PARSE RT_METAR RE_NONE) g eq_refl) as Z2; clear Z.
  cbn [lstep] in H; destruct s; try (exfalso; apply N; reflexivity);
    try (destruct (ReportPart_beq p _); [apply Z1; [intros [A B]; discriminate A | exact H] | discriminate H]).
  destruct t; try (destruct (ReportPart_beq p _); [apply Z1; [intros [A B]; discriminate B | exact H] | discriminate H]).
  destruct p; try discriminate H.
  - destruct g; try discriminate H; injection H as <-; split; discriminate.
  - apply Z2; [discriminate | intros [A B]; discriminate A | exact H].
Qed.
Lemma lrun_state : forall l st q, lrun st l = Some q -> st_error st = RE_NONE -> st_state st <> St_ERROR ->
  st_state st <> St_REPORT_BODY_BEGIN_METAR_REPEAT_PARSE ->
  st_error q = RE_NONE /\ st_state q <> St_ERROR /\ st_state q <> St_REPORT_BODY_BEGIN_METAR_REPEAT_PARSE.
Proof.
  induction l as [|x l IH]; intros st q H E N1 N2; cbn in H; [injection H as <-; auto|].
  destruct (lstep st x) as [st'|] eqn:X; [|discriminate H].
  destruct (lstep_state _ _ _ X E N1) as [A B]; apply (IH st'); auto; exact (lstep_none _ _ _ X).
Qed.
Lemma completion : forall q, st_error q = RE_NONE -> st_state q <> St_ERROR ->
  st_state q <> St_REPORT_BODY_BEGIN_METAR_REPEAT_PARSE -> exists t m, ends q t m.
Proof.
  intros [s t e] E N1 N2; cbn in *; subst e; destruct s; try congruence.
  - exists t, [head SG_LOCATION; head SG_NIL], (mkStatus St_NIL t RE_NONE); repeat split.
  - exists t, [head SG_LOCATION; head SG_NIL], (mkStatus St_NIL t RE_NONE); repeat split.
  - exists t, [head SG_LOCATION; head SG_NIL], (mkStatus St_NIL t RE_NONE); repeat split.
  - exists t, [head SG_NIL], (mkStatus St_NIL t RE_NONE); repeat split.
  - exists t, [head SG_NIL], (mkStatus St_NIL t RE_NONE); destruct t; repeat split.
  - exists t, [(RP_METAR, SG_NIL)], (mkStatus St_NIL t RE_NONE); repeat split.
  - exists t, [], (mkStatus St_REPORT_BODY_METAR t RE_NONE); repeat split.
  - exists t, [(RP_TAF, SG_NIL)], (mkStatus St_NIL t RE_NONE); repeat split.
  - exists t, [], (mkStatus St_REPORT_BODY_TAF t RE_NONE); repeat split.
  - exists t, [], (mkStatus St_REMARK_METAR t RE_NONE); repeat split.
  - exists t, [], (mkStatus St_REMARK_TAF t RE_NONE); repeat split.
  - exists t, [], (mkStatus St_NIL t RE_NONE); repeat split.
  - exists t, [], (mkStatus St_CNL t RE_NONE); repeat split.
Qed.
Lemma viable_iff : forall l, Viable l <-> exists q, lrun Status_init l = Some q.
Proof.
  intros l; split.
  - intros (t & m & H); apply ends_well_formed in H; destruct H as (q & E & _); rewrite lrun_app in E.
    destruct (lrun Status_init l) as [q'|]; [eauto | discriminate E].
  - intros (q & E); destruct (lrun_state _ _ _ E) as (A & B & C); try discriminate; [reflexivity|].
    destruct (completion q A B C) as (t & m & q' & F & G); exists t, m; apply ends_well_formed.
    exists q'; rewrite lrun_app, E; auto.
Qed.

(** ** The result and the automaton *)
Lemma syntax_same : forall g, syntax_of g = getSyntaxGroup g.
Proof. intros g; destruct g; try reflexivity. Qed.
Definition labV (x : item) : label := let '(p, o) := x in (p, match o with Some g => syntax_of g | None => SG_OTHER end).
Lemma labV_view : forall i, labV (view i) = label_of i.
Proof.
  intros i; unfold view, labV, label_of, av; destruct (active (gi_group i)) eqn:A; [reflexivity|].
  rewrite syntax_same, (passive_other _ A); reflexivity.
Qed.
Lemma lstep_other : forall st p q, lstep st (p, SG_OTHER) = Some q -> lstep q (p, SG_OTHER) = Some q.
Proof.
  intros [s t e] p q H; destruct p, s; cbn in H; try discriminate H;
    try (destruct t; cbn in H; try discriminate H; injection H as <-; reflexivity);
    destruct e; cbn in H; try discriminate H; injection H as <-; reflexivity.
Qed.
Lemma lrun_view : forall l, lrun Status_init (map label_of (rev l)) = lrun Status_init (rev (map labV (V l))).
Proof.
  induction l as [|i l IH]; [reflexivity|].
  cbn [rev]; rewrite map_app, lrun_app, IH, V_cons; cbn [map].
  assert (C : push (view i) (V l) = view i :: V l
              \/ (exists p v, V l = (p, None) :: v /\ view i = (p, None) /\ push (view i) (V l) = V l)).
  { destruct (view i) as [p [g|]]; [left; reflexivity|]; cbn [push].
    destruct (V l) as [|[p' [g|]] v]; auto.
    destruct (ReportPart_beq p p') eqn:B; auto; apply internal_ReportPart_dec_bl in B; subst p'; right; eauto. }
  destruct C as [-> |(p & v & Ev & Ei & ->)].
  - cbn [map rev]; rewrite lrun_app, labV_view; reflexivity.
  - rewrite <- labV_view, Ei, Ev; cbn [map rev labV]; rewrite lrun_app.
    destruct (lrun Status_init (rev (map labV v))) as [q|]; [|reflexivity].
    cbn [lrun]; destruct (lstep q (p, SG_OTHER)) as [q'|] eqn:X; [|reflexivity].
    rewrite (lstep_other _ _ _ X); reflexivity.
Qed.
Definition run (l : list GroupInfo) : option Status := lrun Status_init (map label_of (rev l)).
Lemma run_V : forall l l', V l = V l' -> run l = run l'.
Proof. intros l l' E; unfold run; rewrite !lrun_view, E; reflexivity. Qed.

(** The error that a label causes *)
Definition lerror (st : Status) (x : label) : ReportError :=
  match st with
  | mkStatus St_TIME_SPAN RT_UNKNOWN _ => RE_CNL_ALLOWED_IN_TAF_ONLY
  | _ => st_error (transition st (snd x))
  end.

Lemma header_passive : forall s part md g, part = RP_HEADER \/ part = RP_UNKNOWN -> parsed_as g s part md -> active g = true.
Proof.
  intros s part md g P H; destruct g; cbn [parsed_as] in H; try reflexivity; destruct P as [-> | ->];
    try discriminate H; try contradiction H.
  unfold TrendGroup_parse in H; cbn [is_part ReportPart_beq andb orb or_else bind] in H.
  unfold Trend_fromTimeSpan in H; destruct (regex_match rgx_timespan s); [|discriminate H].
  apply bind_ok in H; destruct H as ([f|] & _ & H); apply bind_ok in H; destruct H as ([u|] & _ & H); try discriminate H.
  injection H as <-; reflexivity.
Qed.

(** The part that the offending group is labelled with *)
Definition placed (st : Status) (p : ReportPart) : Prop :=
  match st with
  | mkStatus St_TIME_SPAN RT_UNKNOWN _ => p = RP_METAR
  | _ => p = getReportPart st
  end.
Record Tracked (p : ParserState) : Prop :=
  { tr_ok : isError (ps_status p) = false -> run (ps_groups p) = Some (ps_status p);
    tr_err : isError (ps_status p) = true -> st_error (ps_status p) <> RE_REPORT_TOO_LARGE ->
      exists i l st, ps_groups p = i :: l /\ (active (gi_group i) = true \/ is_fallback (gi_group i) = true)
        /\ gi_rawString i <> ""%string
        /\ run l = Some st /\ lstep st (label_of i) = None /\ placed st (gi_reportPart i)
        /\ st_error (ps_status p) = lerror st (label_of i) }.

Lemma lstep_transition : forall st g, ~ (st_state st = St_TIME_SPAN /\ st_type st = RT_UNKNOWN) ->
  lstep st (getReportPart st, g) = (let q := transition st g in if isError q then None else Some q)
  /\ lerror st (getReportPart st, g) = st_error (transition st g).
Proof.
  intros [s t e] g N; destruct s; try (split; reflexivity); destruct t; try (split; reflexivity).
  exfalso; apply N; split; reflexivity.
Qed.

Lemma tracked_step : forall limit p s q, s <> ""%string -> Inv p -> isError (ps_status p) = false ->
  Step limit s p q -> Tracked p -> Tracked q.
Proof.
  intros limit p s q Ns Ip Er St Tp; pose proof (tr_ok _ Tp Er) as Rp.
  destruct St as [Ev Em Ec|g part st n F Ec U Ev R Gq]; apply count_group_error in Ec; destruct Ec as [_ D].
  - constructor.
    + intros Eq; rewrite (run_V _ _ Ev), Rp; destruct D as [[_ D]|[_ D]]; rewrite D in Eq |- *; [discriminate Eq | reflexivity].
    + intros Eq Nl; exfalso; destruct D as [[_ D]|[_ D]]; rewrite D in *; [apply Nl; reflexivity | congruence].
  - destruct Gq as (l & Gq & Vl); rewrite <- (run_V _ _ Vl) in Rp.
    destruct D as [[_ D]|[Lt D]].
    { constructor; rewrite D; [discriminate | intros _ N; exfalso; apply N; reflexivity]. }
    pose proof (not_error _ Er) as Er'.
    (* one step of the automaton *)
    assert (K : lstep (ps_status p) (part, getSyntaxGroup g)
                = (if isError (ps_status q) then None else Some (ps_status q))
                /\ (isError (ps_status q) = true ->
                      lerror (ps_status p) (part, getSyntaxGroup g) = st_error (ps_status q) /\ placed (ps_status p) part)).
    { rewrite D; destruct F as [g G Rr|g0 g G0 S0 S1 S2 S3 S4 G].
      - destruct (State_beq (st_state (ps_status p)) St_TIME_SPAN && ReportType_beq (st_type (ps_status p)) RT_UNKNOWN) eqn:B.
        + apply andb_prop in B; destruct B as [B1 B2]; apply internal_State_dec_bl in B1; apply internal_ReportType_dec_bl in B2.
          destruct Rr as [Rr|Rr]; [|lia].
          destruct (ps_status p) as [s0 t0 e0]; cbn in B1, B2, Er'; subst.
          destruct (getSyntaxGroup g); cbn in Rr |- *; try discriminate Rr; split; try reflexivity; discriminate.
        + assert (N : ~ (st_state (ps_status p) = St_TIME_SPAN /\ st_type (ps_status p) = RT_UNKNOWN)).
          { intros [A1 A2]; rewrite A1, A2 in B; discriminate B. }
          destruct (lstep_transition _ (getSyntaxGroup g) N) as [L1 L2]; split; [exact L1|]; intros _; split; [exact L2|].
          destruct (ps_status p) as [[] [] e0]; try reflexivity; exfalso; apply N; split; reflexivity.
      - destruct (ps_status p) as [s0 t0 e0]; cbn in S0, S1, Er'; subst.
        destruct (getSyntaxGroup g); cbn; split; try reflexivity; try discriminate; auto. }
    destruct K as [K1 K2]; rewrite <- syntax_same in K1, K2.
    constructor.
    + intros Eq; rewrite Eq in K1; unfold run.
      assert (Eg : run (ps_groups q) = run (mkGroupInfo g part s :: l)).
      { apply run_V; rewrite Ev, V_cons, <- Vl; reflexivity. }
      unfold run in Eg; rewrite Eg; cbn [rev]; rewrite map_app, lrun_app; fold (run l); rewrite Rp; cbn [map lrun].
      unfold label_of; cbn [gi_reportPart gi_group]; rewrite K1; reflexivity.
    + intros Eq _; rewrite Eq in K1; specialize (K2 Eq); destruct K2 as [K2 K3].
      assert (Ff : active g = true \/ (is_fallback g = true /\ (part = RP_HEADER \/ part = RP_UNKNOWN) /\ part = getReportPart (ps_status p))).
      { destruct (active g) eqn:Ag; [left; reflexivity | right].
        assert (Pp : (part = RP_HEADER \/ part = RP_UNKNOWN) /\ part = getReportPart (ps_status p)).
        { rewrite D, (passive_other _ Ag) in Eq; destruct F as [g G Rr|g0 g G0 S0 S1 S2 S3 S4 G]; [|rewrite Er' in Eq; discriminate Eq].
          split; [|reflexivity].
          destruct (ps_status p) as [s0 t0 e0]; cbn in Er'; subst e0; unfold getReportPart; destruct s0; cbn in Eq |- *;
            try discriminate Eq; auto. }
        split; [|exact Pp]; destruct Pp as [Pp _].
        pose proof (fresh_parse _ _ _ _ _ _ _ F) as G; apply GroupParser_parse_inv in G; destruct G as [[-> |G] _]; [reflexivity|].
        apply header_passive in G; [congruence | exact Pp]. }
      exists (mkGroupInfo g part s), l, (ps_status p); cbn [gi_group gi_rawString].
      assert (Ga : ps_groups q = mkGroupInfo g part s :: l).
      { rewrite Gq; unfold addGroupToResult; destruct l as [|j l]; [reflexivity|].
        destruct (is_fallback g && is_fallback (gi_group j)) eqn:B; [exfalso | reflexivity].
        apply andb_prop in B; destruct B as [B1 B2].
        destruct Ff as [A|(_ & Pp & Pq)]; [destruct g; discriminate|].
        pose proof (inv_head _ Ip Er) as Hi; unfold head_inv in Hi; rewrite <- Vl, V_cons in Hi.
        destruct (push_head (view j) (V l)) as (v' & Ej); rewrite Ej in Hi.
        assert (Aj : view j = (gi_reportPart j, None)) by (unfold view, av; destruct (gi_group j); try discriminate B2; reflexivity).
        rewrite Aj in Hi; destruct Hi as [_ Hb]; rewrite Pq in Pp; unfold getReportPart in Pp.
        destruct (st_state (ps_status p)); try discriminate Hb; destruct Pp as [Pp|Pp]; discriminate Pp. }
      repeat split; auto; destruct Ff as [A|[A _]]; auto.
Qed.
Lemma tracked_steps : forall limit used p, Steps limit used p -> Forall token used -> Tracked p.
Proof.
  intros limit; apply (steps_induction limit (fun used p => Forall token used -> Tracked p)).
  - intros _; constructor; [reflexivity | discriminate].
  - intros used p s q _ Ip Er Eq St Iq IH F; apply Forall_app in F; destruct F as [F1 F2].
    apply (tracked_step limit p s q); auto; inversion F2 as [|x y Tk _]; apply Tk.
Qed.

(** ** The end *)
Lemma end_active : forall p r i l, all_reachable (ps_groups p) -> ps_groups p = i :: l ->
  active (gi_group i) = true \/ is_fallback (gi_group i) = true -> gi_rawString i <> ""%string ->
  parse_end p = Ok r -> pr_groups r = rev (i :: l).
Proof.
  intros p r i l R G A N E; apply parse_end_inv in E; destruct E as (l0 & -> & _ & C).
  rewrite G in *; destruct C as [[C _]|(l' & b & _ & Ap & j & l1 & -> & ->)]; [discriminate C|].
  assert (X : j :: l1 = i :: l).
  { cbn [appendToLastResultGroup] in Ap; destruct (is_fallback (gi_group i)) eqn:Fb.
    - apply ok_pair_inj in Ap; apply Ap.
    - destruct A as [A|A]; [|discriminate A].
      apply bind_ok in Ap; destruct Ap as ((g & a) & Ga & Ap).
      rewrite (active_append _ _ _ _ (Forall_inv R) A) in Ga; apply ok_pair_inj in Ga; destruct Ga as [-> ->].
      apply ok_pair_inj in Ap; destruct Ap as [Ap _]; rewrite Ap; destruct i; reflexivity. }
  injection X as -> ->; f_equal; destruct (gi_rawString i) eqn:Z; [congruence | reflexivity].
Qed.
