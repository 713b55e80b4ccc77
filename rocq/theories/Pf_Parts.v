(** The order of the report parts (C12). *)
From Verif Require Import Prim Regex Float Values Weather Groups1 Groups2 Groups3 Groups4 Parser Lib
  SpecTokens SpecReads Pf_Tokens SpecText SpecLimit SpecGrammar Pf_Ok SpecReach Pf_Total Pf_Steps Pf_Kinds
  Pf_View Pf_Fresh Pf_Shape Pf_Limit Pf_Grammar Pf_Grammar2.

(** All on reversed lists: the latest label first. *)
Definition no_rmk (l : list label) : Prop := Forall (fun x => snd x <> SG_RMK) l.
Definition body_part (t : ReportType) (b : list label) : Prop :=
  b = [] \/ (all_part RP_METAR b /\ t = RT_METAR) \/ (all_part RP_TAF b /\ t = RT_TAF).
Definition Ord (t : ReportType) (l : list label) : Prop :=
  exists h b m u, l = (u ++ m ++ b ++ h)%list
    /\ all_part RP_HEADER h /\ body_part t b /\ all_part RP_RMK m /\ all_part RP_UNKNOWN u /\ (m = [] \/ u = [])
    /\ (m <> [] -> exists b' p, b = (p, SG_RMK) :: b') /\ no_rmk (tl b).

(** ** What the status says about the labels so far *)
Definition PartsAt (q : Status) (l : list label) : Prop :=
  match st_state q with
  | St_REPORT_TYPE_OR_LOCATION | St_CORRECTION | St_LOCATION | St_REPORT_TIME | St_TIME_SPAN => all_part RP_HEADER l
  | St_REPORT_BODY_BEGIN_METAR => st_type q = RT_METAR /\ all_part RP_HEADER l
  | St_REPORT_BODY_METAR =>
    st_type q = RT_METAR /\ exists b h, l = (b ++ h)%list /\ all_part RP_HEADER h /\ all_part RP_METAR b /\ no_rmk b
  | St_REMARK_METAR =>
    st_type q = RT_METAR /\ exists m b h, l = (m ++ (RP_METAR, SG_RMK) :: b ++ h)%list /\ all_part RP_HEADER h
      /\ all_part RP_METAR b /\ no_rmk b /\ all_part RP_RMK m
  | St_REPORT_BODY_BEGIN_TAF => st_type q = RT_TAF /\ all_part RP_HEADER l
  | St_REPORT_BODY_TAF =>
    st_type q = RT_TAF /\ exists b h, l = (b ++ h)%list /\ all_part RP_HEADER h /\ all_part RP_TAF b /\ no_rmk b
  | St_REMARK_TAF =>
    st_type q = RT_TAF /\ exists m b h, l = (m ++ (RP_TAF, SG_RMK) :: b ++ h)%list /\ all_part RP_HEADER h
      /\ all_part RP_TAF b /\ no_rmk b /\ all_part RP_RMK m
  | St_NIL | St_CNL => exists b h, l = (b ++ h)%list /\ all_part RP_HEADER h /\ body_part (st_type q) b /\ no_rmk b
  | St_REPORT_BODY_BEGIN_METAR_REPEAT_PARSE | St_ERROR => False
  end.

Ltac part_tac :=
  match goal with
  | |- Forall _ (_ :: _) => constructor; [first [reflexivity | cbn; discriminate] | part_tac]
  | |- all_part _ (_ :: _) => constructor; [first [reflexivity | cbn; discriminate] | part_tac]
  | |- no_rmk (_ :: _) => constructor; [first [reflexivity | cbn; discriminate] | part_tac]
  | |- Forall _ [] => constructor
  | |- all_part _ [] => constructor
  | |- no_rmk [] => constructor
  | |- _ => assumption
  end.
Lemma parts_step : forall q x q' l, st_error q = RE_NONE -> PartsAt q l -> lstep q x = Some q' -> PartsAt q' (x :: l).
Proof.
  intros [s t e] [p g] q' l E H S; cbn in E; subst e; unfold PartsAt in *; cbn [st_state st_type] in H.
  destruct s; try contradiction H.
  (* the header *)
  1-5: try (destruct p, g, t; cbn in S; try discriminate S; injection S as <-; cbn -[all_part no_rmk body_part app]; part_tac; fail).
  - destruct p, g, t; cbn in S; try discriminate S; injection S as <-; cbn -[all_part no_rmk body_part app];
      first [split; [reflexivity | part_tac] | part_tac | exists [], ((RP_HEADER, SG_NIL) :: l); split; [reflexivity|];
        split; [part_tac|]; split; [left; reflexivity | part_tac]].
  - destruct p, g, t; cbn in S; try discriminate S; injection S as <-; cbn -[all_part no_rmk body_part app];
    first [ split; [reflexivity | part_tac]
          | exists [], ((RP_HEADER, SG_NIL) :: l); split; [reflexivity|]; split; [part_tac|]; split; [left; reflexivity | part_tac]
          | exists [(RP_METAR, SG_NIL)], l; split; [reflexivity|]; split; [part_tac|];
            split; [right; left; split; [part_tac | reflexivity] | part_tac]
          | split; [reflexivity|]; exists [], [], l; split; [reflexivity|]; repeat split; part_tac
          | split; [reflexivity|]; match goal with |- context [?x0 :: l] => exists [x0], l end; split; [reflexivity|];
            split; [part_tac|]; split; part_tac ].
  - destruct H as [Ht H]; cbn in Ht; subst t; destruct p, g; cbn in S; try discriminate S; injection S as <-; cbn -[all_part no_rmk body_part app];
    first [ exists [(RP_METAR, SG_NIL)], l; split; [reflexivity|]; split; [part_tac|];
            split; [right; left; split; [part_tac | reflexivity] | part_tac]
          | split; [reflexivity|]; exists [], [], l; split; [reflexivity|]; repeat split; part_tac
          | split; [reflexivity|]; match goal with |- context [?x0 :: l] => exists [x0], l end; split; [reflexivity|];
            split; [part_tac|]; split; part_tac ].
  - destruct H as [Ht (b & h & -> & Hh & Hb & Hn)]; cbn in Ht; subst t; destruct p, g; cbn in S; try discriminate S; injection S as <-; cbn -[all_part no_rmk body_part app];
    first [ split; [reflexivity|]; exists [], b, h; split; [reflexivity|]; repeat split; part_tac
          | split; [reflexivity|]; match goal with |- context [?x0 :: (b ++ h)%list] => exists (x0 :: b), h end; split; [reflexivity|];
            split; [part_tac|]; split; part_tac ].
  - destruct H as [Ht H]; cbn in Ht; subst t; destruct p, g; cbn in S; try discriminate S; injection S as <-; cbn -[all_part no_rmk body_part app];
    first [ match goal with |- context [?x0 :: l] => exists [x0], l end; split; [reflexivity|]; split; [part_tac|];
            split; [right; right; split; [part_tac | reflexivity] | part_tac]
          | split; [reflexivity|]; exists [], [], l; split; [reflexivity|]; repeat split; part_tac
          | split; [reflexivity|]; match goal with |- context [?x0 :: l] => exists [x0], l end; split; [reflexivity|];
            split; [part_tac|]; split; part_tac ].
  - destruct H as [Ht (b & h & -> & Hh & Hb & Hn)]; cbn in Ht; subst t; destruct p, g; cbn in S; try discriminate S; injection S as <-; cbn -[all_part no_rmk body_part app];
    first [ split; [reflexivity|]; exists [], b, h; split; [reflexivity|]; repeat split; part_tac
          | split; [reflexivity|]; match goal with |- context [?x0 :: (b ++ h)%list] => exists (x0 :: b), h end; split; [reflexivity|];
            split; [part_tac|]; split; part_tac ].
  - destruct H as [Ht (m & b & h & -> & Hh & Hb & Hn & Hm)]; cbn in Ht; subst t; destruct p, g; cbn in S; try discriminate S; injection S as <-; cbn -[all_part no_rmk body_part app];
    (split; [reflexivity|]; match goal with |- context [?x0 :: (m ++ ?k)%list] => exists (x0 :: m), b, h end; split; [reflexivity|];
      split; [part_tac|]; split; [part_tac|]; split; part_tac).
  - destruct H as [Ht (m & b & h & -> & Hh & Hb & Hn & Hm)]; cbn in Ht; subst t; destruct p, g; cbn in S; try discriminate S; injection S as <-; cbn -[all_part no_rmk body_part app];
    (split; [reflexivity|]; match goal with |- context [?x0 :: (m ++ ?k)%list] => exists (x0 :: m), b, h end; split; [reflexivity|];
      split; [part_tac|]; split; [part_tac|]; split; part_tac).
  - destruct p, g; cbn in S; discriminate S.
  - destruct p, g; cbn in S; discriminate S.
Qed.

Lemma parts_run : forall l q, lrun Status_init l = Some q -> PartsAt q (rev l).
Proof.
  intros l; induction l as [|x l IH] using rev_ind; intros q H.
  - injection H as <-; constructor.
  - rewrite lrun_snoc in H; destruct (lrun Status_init l) as [st|] eqn:E; [|discriminate H].
    rewrite rev_app_distr; cbn [rev app].
    apply (parts_step st); [|apply IH; reflexivity | exact H].
    apply lrun_good in E; apply E.
Qed.
Lemma ord_at : forall q l, PartsAt q l -> Ord (st_type q) l.
Proof.
  intros [s t e] l H; unfold PartsAt in H; cbn [st_state st_type] in *; unfold Ord.
  destruct s; try contradiction H.
  1-5: exists l, [], [], []; repeat (split; [first [reflexivity | assumption | constructor; fail | left; reflexivity | congruence]|]); constructor.
  all: try (destruct H as [Ht H]; subst t).
  all: try (exists l, [], [], []; repeat (split; [first [reflexivity | assumption | constructor; fail | left; reflexivity | congruence]|]); constructor; fail).
  - destruct H as (b & h & -> & Hh & Hb & Hn); exists h, b, [], []; split; [reflexivity|]; split; [exact Hh|].
    split; [right; left; split; [exact Hb | reflexivity]|]; repeat (split; [first [left; reflexivity | constructor; fail | congruence]|]).
    destruct Hn; [constructor | assumption].
  - destruct H as (b & h & -> & Hh & Hb & Hn); exists h, b, [], []; split; [reflexivity|]; split; [exact Hh|].
    split; [right; right; split; [exact Hb | reflexivity]|]; repeat (split; [first [left; reflexivity | constructor; fail | congruence]|]).
    destruct Hn; [constructor | assumption].
  - destruct H as (m & b & h & -> & Hh & Hb & Hn & Hm); exists h, ((RP_METAR, SG_RMK) :: b), m, []; split; [reflexivity|]; split; [exact Hh|].
    split; [right; left; split; [constructor; [reflexivity | exact Hb] | reflexivity]|]; split; [exact Hm|]; split; [constructor|].
    split; [right; reflexivity|]; split; [eauto | exact Hn].
  - destruct H as (m & b & h & -> & Hh & Hb & Hn & Hm); exists h, ((RP_TAF, SG_RMK) :: b), m, []; split; [reflexivity|]; split; [exact Hh|].
    split; [right; right; split; [constructor; [reflexivity | exact Hb] | reflexivity]|]; split; [exact Hm|]; split; [constructor|].
    split; [right; reflexivity|]; split; [eauto | exact Hn].
  - destruct H as (b & h & -> & Hh & Hb & Hn); exists h, b, [], []; split; [reflexivity|]; split; [exact Hh|].
    split; [exact Hb|]; repeat (split; [first [left; reflexivity | constructor; fail | congruence]|]).
    destruct Hn; [constructor | assumption].
  - destruct H as (b & h & -> & Hh & Hb & Hn); exists h, b, [], []; split; [reflexivity|]; split; [exact Hh|].
    split; [exact Hb|]; repeat (split; [first [left; reflexivity | constructor; fail | congruence]|]).
    destruct Hn; [constructor | assumption].
Qed.
(** One more label, which the automaton may reject *)
Lemma ord_more : forall q l x t, PartsAt q l ->
  (fst x = getReportPart q \/ (fst x = RP_METAR /\ st_state q = St_TIME_SPAN /\ t = RT_METAR)) ->
  (st_type q <> RT_UNKNOWN -> t = st_type q) -> Ord t (x :: l).
Proof.
  intros [s ty e] l [p g] t H P T; unfold PartsAt in H; cbn [st_state st_type fst] in *; unfold Ord.
  unfold getReportPart in P; cbn [st_state] in P.
  destruct P as [-> |(-> & -> & ->)].
  2:{ exists l, [(RP_METAR, g)], [], []; split; [reflexivity|]; split; [exact H|].
      split; [right; left; split; [repeat constructor | reflexivity]|]; repeat (split; [first [left; reflexivity | constructor; fail | congruence]|]).
      constructor. }
  destruct s; try contradiction H.
  1-5: exists ((RP_HEADER, g) :: l), [], [], []; split; [reflexivity|]; split; [constructor; [reflexivity | exact H]|];
    repeat (split; [first [left; reflexivity | constructor; fail | congruence]|]); constructor.
  - destruct H as [-> H]; rewrite T by discriminate.
    exists l, [(RP_METAR, g)], [], []; split; [reflexivity|]; split; [exact H|].
    split; [right; left; split; [repeat constructor | reflexivity]|]; repeat (split; [first [left; reflexivity | constructor; fail | congruence]|]).
    constructor.
  - destruct H as (-> & b & h & -> & Hh & Hb & Hn); rewrite T by discriminate.
    exists h, ((RP_METAR, g) :: b), [], []; split; [reflexivity|]; split; [exact Hh|].
    split; [right; left; split; [constructor; [reflexivity | exact Hb] | reflexivity]|]; repeat (split; [first [left; reflexivity | constructor; fail | congruence]|]).
    exact Hn.
  - destruct H as [-> H]; rewrite T by discriminate.
    exists l, [(RP_TAF, g)], [], []; split; [reflexivity|]; split; [exact H|].
    split; [right; right; split; [repeat constructor | reflexivity]|]; repeat (split; [first [left; reflexivity | constructor; fail | congruence]|]).
    constructor.
  - destruct H as (-> & b & h & -> & Hh & Hb & Hn); rewrite T by discriminate.
    exists h, ((RP_TAF, g) :: b), [], []; split; [reflexivity|]; split; [exact Hh|].
    split; [right; right; split; [constructor; [reflexivity | exact Hb] | reflexivity]|]; repeat (split; [first [left; reflexivity | constructor; fail | congruence]|]).
    exact Hn.
  - destruct H as (-> & m & b & h & -> & Hh & Hb & Hn & Hm); rewrite T by discriminate.
    exists h, ((RP_METAR, SG_RMK) :: b), ((RP_RMK, g) :: m), []; split; [reflexivity|]; split; [exact Hh|].
    split; [right; left; split; [constructor; [reflexivity | exact Hb] | reflexivity]|]; split; [constructor; [reflexivity | exact Hm]|]; split; [constructor|].
    split; [right; reflexivity|]; split; [eauto | exact Hn].
  - destruct H as (-> & m & b & h & -> & Hh & Hb & Hn & Hm); rewrite T by discriminate.
    exists h, ((RP_TAF, SG_RMK) :: b), ((RP_RMK, g) :: m), []; split; [reflexivity|]; split; [exact Hh|].
    split; [right; right; split; [constructor; [reflexivity | exact Hb] | reflexivity]|]; split; [constructor; [reflexivity | exact Hm]|]; split; [constructor|].
    split; [right; reflexivity|]; split; [eauto | exact Hn].
  - destruct H as (b & h & -> & Hh & Hb & Hn).
    exists h, b, [], [(RP_UNKNOWN, g)]; split; [reflexivity|]; split; [exact Hh|].
    split; [destruct Hb as [-> |[[Hb ->]|[Hb ->]]]; [left; reflexivity | rewrite T by discriminate; right; left; auto | rewrite T by discriminate; right; right; auto]|].
    repeat (split; [first [left; reflexivity | constructor; fail | congruence | repeat constructor; fail]|]).
    destruct Hn; [constructor | assumption].
  - destruct H as (b & h & -> & Hh & Hb & Hn).
    exists h, b, [], [(RP_UNKNOWN, g)]; split; [reflexivity|]; split; [exact Hh|].
    split; [destruct Hb as [-> |[[Hb ->]|[Hb ->]]]; [left; reflexivity | rewrite T by discriminate; right; left; auto | rewrite T by discriminate; right; right; auto]|].
    repeat (split; [first [left; reflexivity | constructor; fail | congruence | repeat constructor; fail]|]).
    destruct Hn; [constructor | assumption].
Qed.

Lemma ord_type : forall t t' l, Ord t l -> (t <> RT_UNKNOWN -> t' = t) -> Ord t' l.
Proof.
  intros t t' l (h & b & m & u & E & Hh & Hb & R) T; exists h, b, m, u; split; [exact E|]; split; [exact Hh|]; split; [|exact R].
  destruct Hb as [Hb|[[Hb ->]|[Hb ->]]]; [left; exact Hb | right; left | right; right]; split; auto; apply T; discriminate.
Qed.
Definition LV (p : ParserState) : list label := map labV (V (ps_groups p)).
Lemma parts_tracked : forall limit used p, Steps limit used p -> Forall token used -> isError (ps_status p) = false ->
  PartsAt (ps_status p) (LV p) /\ StateShape (ps_status p) (rev (LV p)).
Proof.
  intros limit used p S F Er; pose proof (tr_ok _ (tracked_steps _ _ _ S F) Er) as R.
  unfold run in R; rewrite lrun_view in R; fold (LV p) in R; split; [|apply state_shape; exact R].
  apply parts_run in R; rewrite rev_involutive in R; exact R.
Qed.
Lemma transition_keeps_type : forall st g l, StateShape st l -> st_type st <> RT_UNKNOWN -> st_type (transition st g) = st_type st.
Proof.
  intros [s t e] g l H N; unfold StateShape in H; cbn [st_state st_type] in *.
  destruct s; try contradiction H; try (destruct H as [_ H]; congruence);
    destruct t; try congruence; try (destruct H as [H _]; congruence); try (destruct H as (? & _ & _ & H); congruence); destruct g; reflexivity.
Qed.
Lemma labels_push : forall part g v, map labV (push (part, av g) v) = map labV v
  \/ map labV (push (part, av g) v) = (part, syntax_of g) :: map labV v.
Proof.
  intros part g v; unfold av; destruct (active g) eqn:A; [right; reflexivity|].
  assert (So : syntax_of g = SG_OTHER) by (rewrite syntax_same, (passive_other _ A); reflexivity).
  rewrite So; cbn [push]; destruct v as [|[p' [g'|]] v]; [right; reflexivity | right; reflexivity|].
  destruct (ReportPart_beq part p'); [left | right]; reflexivity.
Qed.
Lemma parts_steps : forall limit used p, Steps limit used p -> Forall token used -> Ord (st_type (ps_status p)) (LV p).
Proof.
  intros limit; apply (steps_induction limit (fun used p => Forall token used -> Ord (st_type (ps_status p)) (LV p))).
  - intros _; exists [], [], [], []; split; [reflexivity|].
    repeat (split; [first [left; reflexivity | constructor; fail | congruence]|]); constructor.
  - intros used p s q Sp Ip Er Eq St Iq _ F; apply Forall_app in F; destruct F as [F _].
    destruct (parts_tracked _ _ _ Sp F Er) as [Pa Sh].
    destruct St as [Ev Em Ec|g part st n Fr Ec U Ev R Gq]; apply count_group_error in Ec; destruct Ec as [_ D].
    + unfold LV; rewrite Ev; apply (ord_type (st_type (ps_status p))); [apply ord_at; exact Pa|].
      intros _; destruct D as [[_ D]|[_ D]]; rewrite D; reflexivity.
    + assert (Tq : st_type (ps_status q) = st_type (transition st (getSyntaxGroup g))) by (destruct D as [[_ D]|[_ D]]; rewrite D; reflexivity).
      unfold LV; rewrite Ev.
      assert (T : st_type (ps_status p) <> RT_UNKNOWN -> st_type (ps_status q) = st_type (ps_status p)).
      { intros Nu; rewrite Tq; destruct Fr as [g G Rr|g0 g G0 S0 S1 S2 S3 S4 G]; [|congruence].
        eapply transition_keeps_type; eassumption. }
      destruct (labels_push part g (V (ps_groups p))) as [-> | ->].
      * apply (ord_type (st_type (ps_status p))); [apply ord_at; exact Pa | exact T].
      * apply (ord_more (ps_status p)); [exact Pa | | exact T]; cbn [fst].
        destruct Fr as [g G Rr|g0 g G0 S0 S1 S2 S3 S4 G]; [left; reflexivity | right].
        split; [reflexivity|]; split; [exact S0|]; rewrite Tq; destruct (getSyntaxGroup g); reflexivity.
Qed.

(** ** From the view to the groups *)
Inductive Dup : list label -> list label -> Prop :=
| Dup_nil : Dup [] []
| Dup_cons : forall x l l', Dup l l' -> Dup (x :: l) (x :: l')
| Dup_more : forall p l l', Dup ((p, SG_OTHER) :: l) l' -> Dup ((p, SG_OTHER) :: l) ((p, SG_OTHER) :: l').
Lemma dup_V : forall l, Dup (map labV (V l)) (map label_of l).
Proof.
  induction l as [|i l IH]; [constructor|]; rewrite V_cons; cbn [map].
  assert (C : push (view i) (V l) = view i :: V l
              \/ (exists p v, V l = (p, None) :: v /\ view i = (p, None) /\ push (view i) (V l) = V l)).
  { destruct (view i) as [p [g|]]; [left; reflexivity|]; cbn [push].
    destruct (V l) as [|[p' [g|]] v]; auto.
    destruct (ReportPart_beq p p') eqn:B; auto; apply internal_ReportPart_dec_bl in B; subst p'; right; eauto. }
  destruct C as [-> |(p & v & Ev & Ei & ->)].
  - cbn [map]; rewrite labV_view; constructor; exact IH.
  - rewrite <- labV_view, Ei, Ev in *; cbn [map labV] in *; apply Dup_more; exact IH.
Qed.
Lemma dup_app : forall l l', Dup l l' -> forall a b, l = (a ++ b)%list -> exists a' b', l' = (a' ++ b')%list /\ Dup a a' /\ Dup b b'.
Proof.
  intros l l' D; induction D as [|x l l' D IH|p l l' D IH]; intros a b E.
  - destruct a; [|discriminate E]; destruct b; [|discriminate E]; exists [], []; repeat split; constructor.
  - destruct a as [|y a]; cbn in E.
    + subst b; exists [], (x :: l'); repeat split; constructor; exact D.
    + injection E as -> ->; destruct (IH a b eq_refl) as (a' & b' & -> & D1 & D2).
      exists (y :: a'), b'; repeat split; [constructor; exact D1 | exact D2].
  - destruct a as [|y a]; cbn in E.
    + subst b; exists [], ((p, SG_OTHER) :: l'); repeat split; [constructor|]; apply Dup_more; exact D.
    + injection E as <- ->; destruct (IH ((p, SG_OTHER) :: a) b eq_refl) as (a' & b' & -> & D1 & D2).
      exists ((p, SG_OTHER) :: a'), b'; repeat split; [apply Dup_more; exact D1 | exact D2].
Qed.
Lemma dup_forall : forall (P : label -> Prop) l l', Dup l l' -> Forall P l -> Forall P l'.
Proof.
  intros P l l' D; induction D as [|x l l' D IH|p l l' D IH]; intros F; [constructor| |].
  - inversion F; constructor; auto.
  - constructor; [inversion F; assumption | auto].
Qed.
Lemma dup_nil : forall l', Dup [] l' -> l' = [].
Proof. intros l' D; inversion D; reflexivity. Qed.
Lemma dup_head : forall p g l l', Dup ((p, g) :: l) l' -> g <> SG_OTHER -> exists l0, l' = (p, g) :: l0 /\ Dup l l0.
Proof. intros p g l l' D N; inversion D; subst; [eauto | congruence]. Qed.

Lemma ord_dup : forall t l l', Dup l l' -> Ord t l -> Ord t l'.
Proof.
  intros t l l' D (h & b & m & u & E & Hh & Hb & Hm & Hu & Mu & Mr & Nr).
  destruct (dup_app _ _ D _ _ E) as (u' & x & -> & Du & D1); clear D E.
  destruct (dup_app _ _ D1 _ _ eq_refl) as (m' & y & -> & Dm & D2); clear D1.
  destruct (dup_app _ _ D2 _ _ eq_refl) as (b' & h' & -> & Db & Dh); clear D2.
  exists h', b', m', u'; split; [reflexivity|].
  split; [exact (dup_forall _ _ _ Dh Hh)|].
  split.
  { destruct Hb as [-> |[[Hb T]|[Hb T]]]; [apply dup_nil in Db; left; exact Db | right; left | right; right];
      (split; [exact (dup_forall _ _ _ Db Hb) | exact T]). }
  split; [exact (dup_forall _ _ _ Dm Hm)|]; split; [exact (dup_forall _ _ _ Du Hu)|].
  split; [destruct Mu as [-> | ->]; [left; apply dup_nil; exact Dm | right; apply dup_nil; exact Du]|].
  split.
  - intros N; destruct Mr as (b0 & p & ->); [intros ->; apply N, dup_nil; exact Dm|].
    apply dup_head in Db; [|discriminate]; destruct Db as (b1 & -> & _); eauto.
  - destruct b as [|[p g] b]; [apply dup_nil in Db; subst b'; constructor|]; cbn [tl] in Nr.
    inversion Db as [|x l0 l1 D0|q l0 l1 D0]; subst; cbn [tl].
    + exact (dup_forall _ _ _ D0 Nr).
    + apply (dup_forall _ _ _ D0); constructor; [cbn; discriminate | exact Nr].
Qed.

Lemma all_part_rev : forall p l, all_part p l -> all_part p (rev l).
Proof. intros p l H; unfold all_part in *; apply Forall_forall; intros x I; apply in_rev in I; rewrite Forall_forall in H; auto. Qed.
Lemma ord_forward : forall t l, Ord t l -> PartsInOrder t (rev l).
Proof.
  intros t l (h & b & m & u & -> & Hh & Hb & Hm & Hu & Mu & Mr & Nr).
  exists (rev h), (rev b), (rev m), (rev u).
  split; [rewrite !rev_app_distr, <- !app_assoc; reflexivity|].
  split; [apply all_part_rev; exact Hh|].
  split; [destruct Hb as [-> |[[Hb T]|[Hb T]]]; [left; reflexivity | right; left | right; right]; split; auto; apply all_part_rev; exact Hb|].
  split; [apply all_part_rev; exact Hm|]; split; [apply all_part_rev; exact Hu|].
  split; [destruct Mu as [-> | ->]; [left | right]; reflexivity|].
  split.
  - intros N; destruct Mr as (b' & p & ->); [intros ->; apply N; reflexivity|]; exists (rev b'), p; reflexivity.
  - intros b1 p b2 E; destruct b as [|x b]; [destruct b1; discriminate E|]; cbn [rev tl] in *.
    destruct b2 as [|y b2 _] using rev_ind; [reflexivity|exfalso].
    rewrite app_comm_cons, app_assoc in E; apply app_inj_tail in E; destruct E as [E _].
    unfold no_rmk in Nr; rewrite Forall_forall in Nr; apply (Nr (p, SG_RMK)); [|reflexivity].
    match goal with |- In ?x ?l => assert (I : In x (rev l)) by (rewrite E; apply in_or_app; right; left; reflexivity) end.
    apply in_rev; exact I.
Qed.
Lemma parts_in_order : forall sgn report limit r, parse sgn report limit = Ok r ->
  PartsInOrder (md_type (pr_metadata r)) (labels r).
Proof.
  intros sgn report limit r E; destruct (parse_counted _ _ _ _ E) as (rest & p & T & S & R & Ty & Er & Ee & F).
  pose proof (parts_steps _ _ _ S F) as O; rewrite <- Ty in O.
  destruct (end_shape _ _ _ _ S F Ee) as [_ Vr].
  unfold labels; rewrite <- (rev_involutive (map _ _)); apply ord_forward; rewrite <- map_rev.
  eapply ord_dup; [apply dup_V|]; unfold LV in O; rewrite Vr; exact O.
Qed.
