(** One step of Parser::parse: the word is appended to the last group, or becomes a new one. *)
From Verif Require Import Prim Regex Float Values Weather Groups1 Groups2 Groups3 Groups4 Parser Lib
  SpecTokens SpecReads Pf_Tokens SpecText Pf_Ok SpecReach Pf_Total Pf_Steps Pf_Kinds Pf_View.
Local Open Scope string_scope.

Definition body_state (s : State) : bool :=
  match s with
  | St_REPORT_BODY_METAR | St_REPORT_BODY_TAF | St_REMARK_METAR | St_REMARK_TAF => true
  | _ => false
  end.
(** A passive group is last only in the body and in the remarks. *)
Definition head_inv (st : Status) (v : list item) : Prop :=
  match v with (p, None) :: _ => p = getReportPart st /\ body_state (st_state st) = true | _ => True end.
Record Inv (p : ParserState) : Prop :=
  { inv_reach : all_reachable (ps_groups p);
    inv_last : last_inv (ps_groups p);
    inv_adj : no_adj (V (ps_groups p));
    inv_head : isError (ps_status p) = false -> head_inv (ps_status p) (V (ps_groups p));
    inv_repeat : isReparseRequired (ps_status p) = false;
    inv_err : isError (ps_status p) = false -> st_state (ps_status p) <> St_ERROR }.

(** How a word becomes group [g] labelled [part]: the status before the transition and the number
    of groups counted before *)
Inductive FreshFrom (limit : nat) (s : string) (p : ParserState) : Group -> ReportPart -> Status -> nat -> Prop :=
| Fresh_plain : forall g,
    GroupParser_parse s (getReportPart (ps_status p)) (ps_md p) = Ok g ->
    (isReparseRequired (transition (ps_status p) (getSyntaxGroup g)) = false
     \/ (limit <= S (ps_count p))%nat) ->
    FreshFrom limit s p g (getReportPart (ps_status p)) (ps_status p) (ps_count p)
| Fresh_again : forall g0 g,
    GroupParser_parse s RP_HEADER (ps_md p) = Ok g0 ->
    st_state (ps_status p) = St_TIME_SPAN -> st_type (ps_status p) = RT_UNKNOWN ->
    getSyntaxGroup g0 <> SG_TIME_SPAN -> getSyntaxGroup g0 <> SG_NIL ->
    (S (ps_count p) < limit)%nat ->
    GroupParser_parse s RP_METAR (ps_md p) = Ok g ->
    FreshFrom limit s p g RP_METAR
      (mkStatus St_REPORT_BODY_BEGIN_METAR_REPEAT_PARSE RT_METAR (st_error (ps_status p)))
      (S (ps_count p)).

Inductive Step (limit : nat) (s : string) (p q : ParserState) : Prop :=
| Step_append :
    V (ps_groups q) = V (ps_groups p) -> ps_md q = ps_md p ->
    (ps_count q, ps_status q) = count_group limit (ps_count p) (ps_status p) ->
    Step limit s p q
| Step_fresh : forall g part st n,
    FreshFrom limit s p g part st n ->
    (ps_count q, ps_status q) = count_group limit n (transition st (getSyntaxGroup g)) ->
    updateMetadata g (ps_md p) = Ok (ps_md q) ->
    V (ps_groups q) = push (part, av g) (V (ps_groups p)) ->
    Reachable g ->
    (exists l, ps_groups q = addGroupToResult l g part s /\ V l = V (ps_groups p)) ->
    Step limit s p q.

Lemma passive_other : forall g, active g = false -> getSyntaxGroup g = SG_OTHER.
Proof. intros g H; destruct g; try discriminate H; cbn in *; rewrite ?H; reflexivity. Qed.

Lemma count_group_error : forall limit n st m st',
  (m, st') = count_group limit n st ->
  m = S n /\ (((limit <= S n)%nat /\ st' = setError st RE_REPORT_TOO_LARGE) \/ ((S n < limit)%nat /\ st' = st)).
Proof.
  intros limit n st m st' H; unfold count_group in H; injection H as -> ->; split; [reflexivity|].
  destruct (Nat.leb limit (S n)) eqn:E; [left; split; [apply Nat.leb_le in E; exact E | reflexivity]|].
  right; split; [apply Nat.leb_gt in E; exact E | reflexivity].
Qed.
Lemma transition_repeat : forall st g, isReparseRequired st = false -> isReparseRequired (transition st g) = true ->
  st_state st = St_TIME_SPAN /\ st_type st = RT_UNKNOWN /\ g <> SG_TIME_SPAN /\ g <> SG_NIL
  /\ transition st g = mkStatus St_REPORT_BODY_BEGIN_METAR_REPEAT_PARSE RT_METAR (st_error st).
Proof.
  intros [s t e] g N H; destruct s; try discriminate N; destruct g; cbn in H; try discriminate H; destruct t; cbn in H;
    try discriminate H; repeat split; try discriminate.
Qed.
Lemma after_repeat : forall t e g,
  isReparseRequired (transition (mkStatus St_REPORT_BODY_BEGIN_METAR_REPEAT_PARSE t e) g) = false.
Proof. intros t e g; destruct g; reflexivity. Qed.

Lemma transition_error_state : forall st g, isError (transition st g) = false ->
  st_state st <> St_ERROR -> st_state (transition st g) <> St_ERROR.
Proof.
  intros [s t e] g H N; destruct s, g; cbn in *; try discriminate; try congruence;
    destruct t; cbn in *; try discriminate; try congruence.
Qed.

Lemma loop_fresh : forall limit s p g part n st,
  isReparseRequired (ps_status p) = false -> isError (ps_status p) = false ->
  parse_group_loop 3 limit s (ps_md p) (ps_count p) (ps_status p) = Ok (g, part, n, st) ->
  exists st0 n0, FreshFrom limit s p g part st0 n0
    /\ (n, st) = count_group limit n0 (transition st0 (getSyntaxGroup g))
    /\ isReparseRequired st = false.
Proof.
  intros limit s p g part n st N Er0 H.
  change (parse_group_loop 3 limit s (ps_md p) (ps_count p) (ps_status p)) with
    (let! g := GroupParser_parse s (getReportPart (ps_status p)) (ps_md p) in
     let st := transition (ps_status p) (getSyntaxGroup g) in
     let '(count, st) := count_group limit (ps_count p) st in
     if isReparseRequired st && negb (isError st)
     then parse_group_loop 2 limit s (ps_md p) count st
     else Ok (g, getReportPart (ps_status p), count, st)) in H.
  apply bind_ok in H; destruct H as (g0 & G0 & H); cbv zeta in H.
  destruct (count_group limit (ps_count p) (transition (ps_status p) (getSyntaxGroup g0))) as [c1 st1] eqn:C1.
  pose proof C1 as C1'; symmetry in C1'; apply count_group_error in C1'; destruct C1' as [-> D].
  destruct (isReparseRequired st1 && negb (isError st1)) eqn:Rp.
  - apply andb_prop in Rp; destruct Rp as [Rp Er].
    destruct D as [[_ ->]|[Lt ->]]; [discriminate Rp|].
    destruct (transition_repeat _ _ N Rp) as (S1 & S2 & S3 & S4 & S5); rewrite S5 in H.
    change (parse_group_loop 2 limit s (ps_md p) (S (ps_count p))
              (mkStatus St_REPORT_BODY_BEGIN_METAR_REPEAT_PARSE RT_METAR (st_error (ps_status p)))) with
      (let! g := GroupParser_parse s RP_METAR (ps_md p) in
       let st := transition (mkStatus St_REPORT_BODY_BEGIN_METAR_REPEAT_PARSE RT_METAR (st_error (ps_status p))) (getSyntaxGroup g) in
       let '(count, st) := count_group limit (S (ps_count p)) st in
       if isReparseRequired st && negb (isError st)
       then parse_group_loop 1 limit s (ps_md p) count st
       else Ok (g, RP_METAR, count, st)) in H.
    apply bind_ok in H; destruct H as (g1 & G1 & H); cbv zeta in H.
    destruct (count_group limit (S (ps_count p)) _) as [c2 st2] eqn:C2.
    pose proof C2 as C2'; symmetry in C2'; apply count_group_error in C2'; destruct C2' as [-> D2].
    assert (isReparseRequired st2 = false) as R2.
    { destruct D2 as [[_ ->]|[_ ->]]; [reflexivity | apply after_repeat]. }
    rewrite R2 in H; cbn [andb] in H; injection H as <- <- <- <-.
    exists (mkStatus St_REPORT_BODY_BEGIN_METAR_REPEAT_PARSE RT_METAR (st_error (ps_status p))), (S (ps_count p)).
    split; [|split; [symmetry; exact C2 | exact R2]].
    unfold getReportPart in G0; rewrite S1 in G0; eapply Fresh_again; eassumption.
  - injection H as <- <- <- <-; exists (ps_status p), (ps_count p).
    assert (isReparseRequired st1 = false \/ isError st1 = true) as Q.
    { apply andb_false_iff in Rp; destruct Rp as [Rp|Rp]; [auto | right; destruct (isError st1); auto; discriminate]. }
    assert (isReparseRequired st1 = false) as Q1.
    { destruct D as [[_ ->]|[_ ->]]; [reflexivity|]; destruct Q as [Q|Q]; [exact Q|].
      destruct (isReparseRequired (transition (ps_status p) (getSyntaxGroup g0))) eqn:X; [|reflexivity].
      destruct (transition_repeat _ _ N X) as (_ & _ & _ & _ & S5).
      rewrite S5 in Q; unfold isError in Q, Er0; cbn [st_error] in Q; congruence. }
    split; [|split; [symmetry; exact C1 | exact Q1]].
    constructor; [exact G0|].
    destruct D as [[Le _]|[_ ->]]; [right; exact Le | left; exact Q1].
Qed.

Lemma fresh_reach : forall limit s p g part st n, FreshFrom limit s p g part st n -> Reachable g.
Proof.
  intros limit s p g part st n H; destruct H as [g G _|g0 g _ _ _ _ _ _ G];
    [pose proof (ok_GroupParser_parse s (getReportPart (ps_status p)) (ps_md p)) as O
    |pose proof (ok_GroupParser_parse s RP_METAR (ps_md p)) as O]; rewrite G in O; exact O.
Qed.
Lemma fresh_parse : forall limit s p g part st n, FreshFrom limit s p g part st n ->
  GroupParser_parse s part (ps_md p) = Ok g.
Proof. intros limit s p g part st n H; destruct H; assumption. Qed.

Lemma not_error : forall st, isError st = false -> st_error st = RE_NONE.
Proof.
  intros st H; unfold isError in H; apply negb_false_iff in H; apply internal_ReportError_dec_bl; exact H.
Qed.

Lemma step_inv : forall limit s p q, Inv p -> isError (ps_status p) = false -> parse_step limit s p = Ok q ->
  Inv q /\ Step limit s p q.
Proof.
  intros limit s p q I Er E.
  assert (R : all_reachable (ps_groups q)).
  { pose proof (ok_parse_step limit s p (inv_reach p I)) as O; rewrite E in O; exact O. }
  unfold parse_step in E; cbv zeta in E; apply bind_ok in E; destruct E as ([l b] & A & E).
  assert (Rl : all_reachable l).
  { pose proof (ok_appendToLast (ps_groups p) s (getReportPart (ps_status p)) (ps_md p) (inv_reach p I)) as O.
    rewrite A in O; apply O. }
  apply appendToLast_view in A; [|apply I..]; destruct A as [Av Al].
  destruct b; cbn [negb] in E.
  - destruct (count_group limit (ps_count p) (ps_status p)) as [n st] eqn:C; injection E as <-.
    pose proof C as C'; symmetry in C'; apply count_group_error in C'; destruct C' as [-> D]; split.
    + constructor; cbn [ps_groups ps_status] in *; [exact R | apply Al; reflexivity | rewrite Av; apply I | | |].
      * intros N; rewrite Av; destruct D as [[_ ->]|[_ ->]]; [discriminate N | apply I; exact N].
      * destruct D as [[_ ->]|[_ ->]]; [reflexivity | apply I].
      * intros N; destruct D as [[_ ->]|[_ ->]]; [discriminate N | apply I; exact N].
    + apply Step_append; cbn [ps_groups ps_status ps_md ps_count]; [exact Av | reflexivity | symmetry; exact C].
  - apply bind_ok in E; destruct E as ([[[g part] n] st] & L & E).
    apply bind_ok in E; destruct E as (md & U & E); injection E as E; subst q.
    apply loop_fresh in L; [|apply I | exact Er]; destruct L as (st0 & n0 & F & C & Nr).
    pose proof C as C'; apply count_group_error in C'; destruct C' as [-> D].
    assert (Hp : active g = false -> head_part part (V l)).
    { intros Ag; rewrite Av; pose proof (inv_head p I Er) as Hi.
      unfold head_part; unfold head_inv in Hi; destruct (V (ps_groups p)) as [|[P [?|]] v]; auto.
      destruct Hi as [-> B]; destruct F as [g G _|g0 g _ X _ _ _ _ _]; [reflexivity | rewrite X in B; discriminate]. }
    assert (Vq : V (addGroupToResult l g part s) = push (part, av g) (V (ps_groups p))).
    { rewrite V_add by exact Hp; rewrite Av; reflexivity. }
    split.
    + constructor; cbn [ps_groups ps_status] in *; [exact R | eapply last_inv_add, fresh_parse; exact F | | | exact Nr |].
      * rewrite Vq; apply no_adj_push; [apply I|]; cbn [fst snd].
        destruct (active g) eqn:Ag; [right; unfold av; rewrite Ag; discriminate | left; rewrite <- Av; auto].
      * intros N; rewrite Vq; unfold av; destruct (active g) eqn:Ag; [exact Logic.I|].
        destruct (push_head (part, None) (V (ps_groups p))) as (v' & ->); cbn.
        destruct D as [[_ ->]|[Lt ->]]; [discriminate N|]; rewrite (passive_other _ Ag) in *.
        destruct F as [g G Q|g0 g _ X Y _ _ _ _].
        -- apply not_error in N; destruct (ps_status p) as [s0 t0 e0] eqn:S0; destruct s0; cbn in *; try discriminate; auto.
           ++ destruct t0; cbn in *; try discriminate; destruct Q as [Q|Q]; try discriminate; lia.
           ++ exfalso; rewrite <- S0 in Er; apply (inv_err p I Er); rewrite S0; reflexivity.
        -- split; reflexivity.
      * intros N; destruct D as [[_ ->]|[_ ->]]; [discriminate N|].
        apply transition_error_state; [exact N|].
        destruct F as [g G Q|g0 g _ X Y _ _ _ _]; [apply I; exact Er | discriminate].
    + eapply Step_fresh; cbn [ps_groups ps_status ps_md ps_count];
        [exact F | exact C | exact U | exact Vq | eapply fresh_reach; exact F | exists l; auto].
Qed.

Lemma inv_init : Inv ps_init.
Proof. constructor; cbn; auto; [constructor | discriminate]. Qed.
Lemma steps_inv : forall limit used p, Steps limit used p -> Inv p.
Proof.
  intros limit used p H; induction H as [|used p s q H IH Er E]; [exact inv_init|].
  exact (proj1 (step_inv _ _ _ _ IH Er E)).
Qed.
(** Induction over the steps of a parse *)
Lemma steps_induction : forall (limit : nat) (P : list string -> ParserState -> Prop),
  P [] ps_init ->
  (forall used p s q, Steps limit used p -> Inv p -> isError (ps_status p) = false ->
     parse_step limit s p = Ok q -> Step limit s p q -> Inv q -> P used p -> P (used ++ [s])%list q) ->
  forall used p, Steps limit used p -> P used p.
Proof.
  intros limit P B S used p H; induction H as [|used p s q H IH Er E]; [exact B|].
  pose proof (steps_inv _ _ _ H) as Ip; destruct (step_inv _ _ _ _ Ip Er E) as [Iq St].
  eapply S; eassumption.
Qed.

(** The end of the parse *)
Lemma end_view : forall p r, Inv p -> parse_end p = Ok r -> V (rev (pr_groups r)) = V (ps_groups p)
  \/ exists i, V (ps_groups p) = push (view i) (V (rev (pr_groups r))) /\ sempty (gi_rawString i) = true.
Proof.
  intros p r I E; apply parse_end_inv in E; destruct E as (l & G & _ & C); rewrite G, rev_involutive.
  destruct C as [[-> ->]|(l' & b & N & A & i & l0 & -> & ->)]; [auto|].
  apply appendToLast_view in A; [|apply I..]; destruct A as [Av _].
  destruct (sempty (gi_rawString i)) eqn:Z; [right | left; exact Av].
  exists i; rewrite <- Av; auto.
Qed.
