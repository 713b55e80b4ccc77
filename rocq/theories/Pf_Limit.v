(** The group limit (C07). *)
From Verif Require Import Prim Regex Float Values Weather Groups1 Groups2 Groups3 Groups4 Parser Lib
  SpecTokens SpecReads Pf_Tokens SpecText SpecLimit Pf_Ok SpecReach Pf_Total Pf_Steps Pf_Kinds Pf_View Pf_Fresh Pf_Shape.
Local Open Scope string_scope.

(** ** The first word *)

Lemma header_parse_keyword : forall s md k, KeywordGroup_parse s RP_HEADER md = Ok (Some k) ->
  match kw_t k with
  | Kw_METAR => s = "METAR" | Kw_SPECI => s = "SPECI" | Kw_TAF => s = "TAF" | Kw_AMD => s = "AMD"
  | Kw_COR => s = "COR" | Kw_NIL => s = "NIL" | Kw_CNL => s = "CNL"
  | Kw_MAINTENANCE_INDICATOR => s = "$" | _ => False
  end.
Proof.
  intros s md k H; unfold KeywordGroup_parse in H; cbn [is_part ReportPart_beq andb orb] in H.
  repeat match type of H with
  | (if seqb s ?t then _ else _) = _ =>
    let E := fresh "E" in destruct (seqb s t) eqn:E; [apply seqb_eq in E; injection H as <-; exact E|]
  end; discriminate.
Qed.
Definition typed_keyword (s : string) : bool := seqb s "METAR" || seqb s "SPECI".
Lemma header_syntax : forall s md g, GroupParser_parse s RP_HEADER md = Ok g ->
  (typed_keyword s = true <-> (getSyntaxGroup g = SG_METAR \/ getSyntaxGroup g = SG_SPECI))
  /\ (s = "TAF" <-> getSyntaxGroup g = SG_TAF).
Proof.
  intros s md g H.
  assert (A : forall k, g = GKeyword k -> KeywordGroup_parse s RP_HEADER md = Ok (Some k)).
  { intros k ->; apply GroupParser_parse_inv in H; destruct H as [[H|H] _]; [discriminate | exact H]. }
  assert (B : forall x, getSyntaxGroup g = x -> x = SG_METAR \/ x = SG_SPECI \/ x = SG_TAF ->
    exists k, g = GKeyword k).
  { intros x <- X; destruct g; eauto; cbn in X;
      try (destruct X as [X|[X|X]]; discriminate X).
    destruct (Trend_isTimeSpanGroup g); destruct X as [X|[X|X]]; discriminate X. }
  split; split.
  - unfold typed_keyword; intros T; apply orb_prop in T; destruct T as [T|T]; apply seqb_eq in T; subst s;
      vm_compute in H; injection H as <-; [left | right]; reflexivity.
  - unfold typed_keyword; intros T.
    destruct (B (getSyntaxGroup g) eq_refl) as (k & ->); [destruct T as [-> | ->]; auto|].
    specialize (A k eq_refl); apply header_parse_keyword in A; cbn in T.
    destruct (kw_t k); destruct T as [T|T]; try discriminate T; rewrite A; reflexivity.
  - intros ->; vm_compute in H; injection H as <-; reflexivity.
  - intros T; destruct (B _ T) as (k & ->); [auto|].
    specialize (A k eq_refl); apply header_parse_keyword in A; cbn in T.
    destruct (kw_t k); try discriminate T; exact A.
Qed.

(** ** Counting *)

Lemma transition_not_first : forall st g, st_state (transition st g) <> St_REPORT_TYPE_OR_LOCATION
  \/ st_state st = St_REPORT_BODY_METAR /\ False.
Proof.
  intros [s t e] g; left; destruct s, g; cbn; try discriminate; destruct t; cbn; discriminate.
Qed.
Lemma transition_type : forall st g, st_state st <> St_REPORT_TYPE_OR_LOCATION ->
  isReparseRequired (transition st g) = false ->
  st_type (transition st g) = st_type st
  \/ (st_state st = St_TIME_SPAN /\ g = SG_TIME_SPAN /\ st_type (transition st g) = RT_TAF).
Proof.
  intros [s t e] g N R; destruct s, g; cbn in *; try congruence; auto; destruct t; cbn in *; auto; discriminate.
Qed.
Lemma transition_first_type : forall g, 
  st_type (transition Status_init g) =
    match g with SG_METAR | SG_SPECI => RT_METAR | SG_TAF => RT_TAF | _ => RT_UNKNOWN end.
Proof. intros g; destruct g; reflexivity. Qed.
Lemma transition_not_too_large : forall st g, st_error st = RE_NONE ->
  st_error (transition st g) <> RE_REPORT_TOO_LARGE.
Proof. intros [s t e] g E; cbn in E; subst e; destruct s, g; cbn; try discriminate; destruct t; cbn; discriminate. Qed.

Definition extra (used : list string) (st : Status) : nat :=
  match used with
  | t :: _ => if ReportType_beq (st_type st) RT_METAR && negb (typed_keyword t) then 1 else 0
  | [] => 0
  end.
Record Counted (limit : nat) (used : list string) (p : ParserState) : Prop :=
  { cn_first : used = [] -> p = ps_init;
    cn_state : used <> [] -> st_state (ps_status p) <> St_REPORT_TYPE_OR_LOCATION;
    cn_typed : match used with t :: _ => typed_keyword t = true -> st_type (ps_status p) = RT_METAR | [] => True end;
    cn_span : st_state (ps_status p) = St_TIME_SPAN -> st_type (ps_status p) <> RT_METAR;
    cn_time : st_state (ps_status p) = St_TIME_SPAN \/ st_state (ps_status p) = St_REPORT_TIME
              \/ st_state (ps_status p) = St_CORRECTION \/ st_state (ps_status p) = St_LOCATION ->
              st_type (ps_status p) = RT_METAR -> match used with t :: _ => typed_keyword t = true | [] => False end;
    cn_count : isError (ps_status p) = false ->
      ps_count p = (length used + extra used (ps_status p))%nat /\ (used = [] \/ (ps_count p < limit)%nat);
    cn_error : isError (ps_status p) = true ->
      (st_error (ps_status p) = RE_REPORT_TOO_LARGE <->
       (limit <= length used + extra used (ps_status p))%nat) }.

Lemma extra_snoc : forall t used s st, extra ((t :: used) ++ [s]) st = extra (t :: used) st.
Proof. reflexivity. Qed.
Lemma set_error_type : forall st e, st_type (setError st e) = st_type st.
Proof. reflexivity. Qed.

Lemma first_not_appended : forall limit s q, parse_step limit s ps_init = Ok q -> V (ps_groups q) <> [].
Proof.
  intros limit s q H; unfold parse_step in H; cbn [ps_groups ps_init appendToLastResultGroup bind negb] in H.
  apply bind_ok in H; destruct H as ((((g & part) & c) & st) & _ & H).
  apply bind_ok in H; destruct H as (md & _ & H); injection H as <-; cbn [ps_groups].
  unfold addGroupToResult; rewrite V_cons.
  destruct (push_head (view (mkGroupInfo g part s)) (V [])) as (v & ->); discriminate.
Qed.

Lemma extra_same : forall used s st st', used <> [] -> st_type st' = st_type st ->
  extra (used ++ [s])%list st' = extra used st.
Proof. intros [|t used] s st st' N E; [congruence|]; cbn; rewrite E; reflexivity. Qed.
Lemma extra_not_metar : forall used st, st_type st <> RT_METAR -> extra used st = 0%nat.
Proof. intros [|t used] st N; [reflexivity|]; cbn; destruct (st_type st); try reflexivity; congruence. Qed.
Lemma extra_typed : forall t used st, typed_keyword t = true -> extra (t :: used) st = 0%nat.
Proof. intros t used st T; cbn; rewrite T, andb_false_r; reflexivity. Qed.

Definition early (s : State) : Prop :=
  s = St_TIME_SPAN \/ s = St_REPORT_TIME \/ s = St_CORRECTION \/ s = St_LOCATION.

Lemma early_back : forall st g, early (st_state (transition st g)) ->
  st_state st <> St_REPORT_TYPE_OR_LOCATION -> st_state st <> St_ERROR -> early (st_state st).
Proof.
  unfold early; intros [s t e] g A N1 N2; destruct s; cbn in *; try congruence; auto 6;
    exfalso; destruct g; cbn in A; try (destruct A as [A|[A|[A|A]]]; discriminate A);
    destruct t; cbn in A; destruct A as [A|[A|[A|A]]]; discriminate A.
Qed.
Lemma span_back : forall st g, st_state st <> St_REPORT_TYPE_OR_LOCATION -> st_state (transition st g) = St_TIME_SPAN ->
  st_state st = St_TIME_SPAN \/ st_type st <> RT_METAR.
Proof.
  intros [s t e] g N A; destruct s; cbn in *; try congruence; auto; destruct g; cbn in A; try discriminate A;
    destruct t; cbn in A; try discriminate A; right; discriminate.
Qed.

Lemma counted_step : forall limit used p s q, Inv p -> isError (ps_status p) = false ->
  parse_step limit s p = Ok q -> Step limit s p q -> Inv q -> Counted limit used p -> Counted limit (used ++ [s])%list q.
Proof.
  intros limit used p s q Ip Er Eq St Iq C.
  destruct (cn_count _ _ _ C Er) as [Cn Lt].
  destruct St as [Ev Em Ec|g part st n F Ec U Ev R Gq].
  - (* appended *)
    assert (Nu : used <> []).
    { intros ->; rewrite (cn_first _ _ _ C eq_refl) in *; apply first_not_appended in Eq; rewrite Ev in Eq; apply Eq; reflexivity. }
    apply count_group_error in Ec; destruct Ec as [Ec D].
    destruct used as [|t used]; [congruence|]; clear Nu.
    assert (Ty : st_type (ps_status q) = st_type (ps_status p)) by (destruct D as [[_ ->]|[_ ->]]; reflexivity).
    assert (X : extra ((t :: used) ++ [s])%list (ps_status q) = extra (t :: used) (ps_status p)) by (apply extra_same; congruence).
    assert (Ln : length ((t :: used) ++ [s])%list = S (length (t :: used))) by (rewrite app_length; cbn; lia).
    pose proof (cn_state _ _ _ C) as C1; pose proof (cn_typed _ _ _ C) as C2;
      pose proof (cn_span _ _ _ C) as C3; pose proof (cn_time _ _ _ C) as C4; cbn beta iota in C2, C4.
    assert (C1' : st_state (ps_status p) <> St_REPORT_TYPE_OR_LOCATION) by (apply C1; discriminate).
    constructor.
    + discriminate.
    + intros _; destruct D as [[_ ->]|[_ ->]]; [discriminate | exact C1'].
    + cbn; intros T; rewrite Ty; apply C2, T.
    + destruct D as [[_ ->]|[_ ->]]; [discriminate | exact C3].
    + cbn beta iota; destruct D as [[_ ->]|[_ ->]]; [cbn; intros [?|[?|[?|?]]]; discriminate | exact C4].
    + intros Eq'; rewrite X, Ln, Ec; split; [lia | right].
      destruct D as [[_ D]|[D _]]; [rewrite D in Eq'; discriminate | lia].
    + intros Eq'; rewrite X, Ln; destruct D as [[Le ->]|[_ D]]; [|congruence].
      split; [intros _; lia | reflexivity].
  - (* a new group *)
    apply count_group_error in Ec; destruct Ec as [Ec D].
    assert (Ln : length (used ++ [s])%list = S (length used)) by (rewrite app_length; cbn; lia).
    destruct used as [|t used].
    + (* the first word *)
      rewrite (cn_first _ _ _ C eq_refl) in *; clear C.
      inversion F as [g' G Rr|g0 g' G0 S0 S1 S2 S3 S4 G]; subst; [|discriminate S0].
      cbn [ps_status ps_count ps_init ps_md getReportPart Status_init] in *.
      destruct (header_syntax _ _ _ G) as [H1 H2].
      assert (Ty : st_type (ps_status q) = match getSyntaxGroup g with SG_METAR | SG_SPECI => RT_METAR | SG_TAF => RT_TAF | _ => RT_UNKNOWN end).
      { rewrite <- transition_first_type; destruct D as [[_ ->]|[_ ->]]; reflexivity. }
      assert (TM : st_type (ps_status q) = RT_METAR <-> typed_keyword s = true).
      { rewrite Ty, H1; destruct (getSyntaxGroup g); split; intros X; try discriminate X; auto; destruct X; discriminate. }
      assert (X0 : extra [s] (ps_status q) = 0%nat).
      { destruct (typed_keyword s) eqn:T; [apply extra_typed, T | apply extra_not_metar; intros M; apply TM in M; congruence]. }
      constructor; cbn [app].
      * discriminate.
      * intros _; destruct D as [[_ ->]|[_ ->]]; [discriminate|].
        destruct (transition_not_first Status_init (getSyntaxGroup g)) as [N|[_ []]]; exact N.
      * apply TM.
      * intros S; exfalso; destruct D as [[_ D]|[_ D]]; rewrite D in S; [discriminate|].
        destruct (getSyntaxGroup g); discriminate S.
      * intros _; apply TM.
      * rewrite X0, Ec; intros Eq'; cbn; split; [lia | right].
        destruct D as [[_ D]|[D _]]; [rewrite D in Eq'; discriminate | lia].
      * rewrite X0; intros Eq'; cbn [length]; destruct D as [[Le ->]|[Lt' D]].
        -- split; [intros _; lia | reflexivity].
        -- rewrite D; split; [|lia]; intros X; exfalso; eapply transition_not_too_large; [|exact X]; reflexivity.
    + pose proof (cn_state _ _ _ C) as C1; pose proof (cn_typed _ _ _ C) as C2;
        pose proof (cn_span _ _ _ C) as C3; pose proof (cn_time _ _ _ C) as C4; cbn beta iota in C2, C4.
      assert (C1' : st_state (ps_status p) <> St_REPORT_TYPE_OR_LOCATION) by (apply C1; discriminate).
      assert (Nt := transition_not_first st (getSyntaxGroup g)); destruct Nt as [Nt|[_ []]].
      assert (E0 : st_error st = RE_NONE).
      { pose proof (not_error _ Er) as E0; destruct F; exact E0. }
      (* what is known of the new type and count *)
      assert (K : (st_type (transition st (getSyntaxGroup g)) = RT_METAR -> st_type (ps_status p) = RT_METAR
                   \/ (typed_keyword t = false /\ st_state (ps_status p) = St_TIME_SPAN))
                  /\ (typed_keyword t = true -> st_type (transition st (getSyntaxGroup g)) = RT_METAR)
                  /\ (early (st_state (transition st (getSyntaxGroup g))) -> early (st_state (ps_status p))
                       /\ st_type (transition st (getSyntaxGroup g)) = st_type (ps_status p))
                  /\ (st_state (transition st (getSyntaxGroup g)) = St_TIME_SPAN -> st_type (transition st (getSyntaxGroup g)) <> RT_METAR)
                  /\ ((limit <= S n)%nat <-> (limit <= S (length (t :: used)) + extra (t :: used) (transition st (getSyntaxGroup g)))%nat)
                  /\ ((S n < limit)%nat -> S n = (S (length (t :: used)) + extra (t :: used) (transition st (getSyntaxGroup g)))%nat)).
      { inversion F as [g' G Rr|g0 g' G0 S0 S1 S2 S3 S4 G]; subst.
        - destruct (isReparseRequired (transition (ps_status p) (getSyntaxGroup g))) eqn:Rq.
          + destruct Rr as [Rr|Rr]; [congruence|].
            destruct (transition_repeat _ _ (inv_repeat _ Ip) Rq) as (T1 & T2 & T3 & T4 & T5); rewrite T5; cbn [st_type st_state].
            assert (Tt : typed_keyword t = false).
            { destruct (typed_keyword t) eqn:Tt; [|reflexivity]; rewrite (C2 eq_refl) in T2; discriminate T2. }
            assert (X' : extra (t :: used) (ps_status p) = 0%nat) by (apply extra_not_metar; congruence).
            refine (conj _ (conj _ (conj _ (conj _ (conj _ _))))); try congruence; auto; try lia.
            all: intros [A|[A|[A|A]]]; discriminate A.
          + destruct (transition_type _ (getSyntaxGroup g) C1' Rq) as [Ty|(T1 & T2 & T3)].
            * assert (X : extra (t :: used) (transition (ps_status p) (getSyntaxGroup g)) = extra (t :: used) (ps_status p))
                by (cbn; rewrite Ty; reflexivity).
              rewrite X, Ty; refine (conj _ (conj _ (conj _ (conj _ (conj _ _))))); auto; try lia.
              -- intros A; apply early_back in A; [exact (conj A eq_refl) | exact C1' | apply inv_err; assumption].
              -- intros A M; destruct (span_back _ _ C1' A) as [B|B]; [apply C3 in M; assumption | congruence].
            * assert (X : extra (t :: used) (transition (ps_status p) (getSyntaxGroup g)) = 0%nat)
                by (apply extra_not_metar; rewrite T3; discriminate).
              assert (X' : extra (t :: used) (ps_status p) = 0%nat) by (apply extra_not_metar, C3, T1).
              assert (Tt : typed_keyword t = false).
              { destruct (typed_keyword t) eqn:Tt; [|reflexivity]; exfalso; apply C3; auto. }
              rewrite X, T3; refine (conj _ (conj _ (conj _ (conj _ (conj _ _))))); auto; try lia; try congruence.
              all: intros A; exfalso; rewrite T2 in A; destruct (ps_status p) as [s0 t0 e0]; cbn in T1; subst s0;
                 destruct A as [A|[A|[A|A]]]; discriminate A.
        - assert (Tt : typed_keyword t = false).
          { destruct (typed_keyword t) eqn:Tt; [|reflexivity]; rewrite (C2 eq_refl) in S1; discriminate S1. }
          assert (X' : extra (t :: used) (ps_status p) = 0%nat) by (apply extra_not_metar; congruence).
          set (st := mkStatus _ _ _) in *.
          assert (Ty : st_type (transition st (getSyntaxGroup g)) = RT_METAR) by (destruct (getSyntaxGroup g); reflexivity).
          assert (X : extra (t :: used) (transition st (getSyntaxGroup g)) = 1%nat) by (unfold extra; rewrite Ty, Tt; reflexivity).
          rewrite X; refine (conj _ (conj _ (conj _ (conj _ (conj _ _))))); auto; try lia; try congruence.
          all: intros A; exfalso; destruct (getSyntaxGroup g); first [discriminate A | destruct A as [A|[A|[A|A]]]; discriminate A]. }
      destruct K as (K1 & K2 & K3 & K4 & K5 & K6).
      assert (Dn : isError (ps_status q) = false -> (S n < limit)%nat /\ ps_status q = transition st (getSyntaxGroup g)).
      { destruct D as [[_ D]|D]; [intros A; rewrite D in A; discriminate A | intros _; exact D]. }
      assert (Ty : st_type (ps_status q) = st_type (transition st (getSyntaxGroup g))) by (destruct D as [[_ ->]|[_ ->]]; reflexivity).
      assert (X : extra ((t :: used) ++ [s]) (ps_status q) = extra (t :: used) (transition st (getSyntaxGroup g))) by (apply extra_same; congruence).
      constructor.
      * discriminate.
      * intros _; destruct D as [[_ ->]|[_ ->]]; [discriminate | exact Nt].
      * cbn; rewrite Ty; exact K2.
      * destruct D as [[_ ->]|[_ ->]]; [discriminate | exact K4].
      * cbn beta iota; destruct D as [[_ ->]|[_ ->]]; [intros [A|[A|[A|A]]]; discriminate A|].
        intros A M; destruct (K3 A) as [K3a K3b]; rewrite K3b in M; apply C4; assumption.
      * intros A; destruct (Dn A) as [A1 A2]; rewrite X, Ln, Ec; rewrite (K6 A1) in *; split; [reflexivity | right; lia].
      * intros A; rewrite X, Ln; destruct D as [[Le ->]|[Lt' D]].
        -- split; [intros _; apply K5, Le | reflexivity].
        -- rewrite D; split.
           ++ intros B; exfalso; eapply transition_not_too_large; [exact E0 | exact B].
           ++ intros B; apply K5 in B; lia.
Qed.

Lemma counted_steps : forall limit used p, Steps limit used p -> Counted limit used p.
Proof.
  intros limit; apply steps_induction.
  - constructor; cbn; try congruence; auto; try discriminate.
  - intros used p s q _ Ip Er Eq St Iq C; exact (counted_step _ _ _ _ _ Ip Er Eq St Iq C).
Qed.
Lemma consumed_bound : forall limit used p, Steps limit used p -> (length used <= Nat.max 1 limit)%nat.
Proof.
  intros limit used p H; destruct H as [|used p s q H Er E]; [cbn; lia|].
  destruct (cn_count _ _ _ (counted_steps _ _ _ H) Er) as [Cn Lt].
  rewrite app_length; cbn [length]; destruct Lt as [-> |Lt]; [cbn [length]|]; lia.
Qed.

Lemma transition_error_is : forall st g, isError st = false -> isError (transition st g) = true ->
  st_state (transition st g) = St_ERROR.
Proof.
  intros [s t e] g N A; apply not_error in N; cbn in N; subst e.
  destruct s, g; cbn in *; try discriminate A; try reflexivity; destruct t; cbn in *; try discriminate A; reflexivity.
Qed.
Lemma error_state : forall limit used p, Steps limit used p -> isError (ps_status p) = true ->
  st_state (ps_status p) = St_ERROR.
Proof.
  intros limit; apply (steps_induction limit (fun used p => isError (ps_status p) = true -> st_state (ps_status p) = St_ERROR)).
  - discriminate.
  - intros used p s q _ Ip Er Eq St Iq _ A.
    destruct St as [Ev Em Ec|g part st n F Ec U Ev R Gq]; apply count_group_error in Ec; destruct Ec as [_ D].
    + destruct D as [[_ ->]|[_ D]]; [reflexivity | rewrite D in A; congruence].
    + destruct D as [[_ ->]|[_ D]]; [reflexivity|]; rewrite D in *; apply transition_error_is; [|exact A].
      destruct F; [exact Er|]; rewrite (not_error _ Er); reflexivity.
Qed.

(** The end of parse() *)
Lemma final_type : forall st, st_type (finalTransition st) = st_type st.
Proof. intros [s t e]; destruct s; reflexivity. Qed.
Lemma parse_counted : forall sgn report limit r, parse sgn report limit = Ok r ->
  exists rest p, report_groups sgn report = (words_of_result r ++ rest)%list
    /\ Steps limit (words_of_result r) p /\ (rest = [] \/ isError (ps_status p) = true)
    /\ md_type (pr_metadata r) = st_type (ps_status p)
    /\ md_error (pr_metadata r) = st_error (finalTransition (ps_status p))
    /\ parse_end p = Ok r /\ Forall token (words_of_result r).
Proof.
  intros sgn report limit r E; destruct (parse_inv _ _ _ _ E) as (used & rest & p & T & S & R & Ee & F).
  exists rest, p; rewrite (W_end _ _ Ee), (W_steps _ _ _ S F).
  pose proof (parse_end_inv _ _ Ee) as (l & _ & Em & _); rewrite Em; cbn [md_set_typeError md_type md_error].
  rewrite final_type; repeat split; assumption.
Qed.

Lemma limit_bounds_work : forall sgn report limit r, parse sgn report limit = Ok r ->
  (length (words_of_result r) <= Nat.max 1 limit)%nat.
Proof.
  intros sgn report limit r E; destruct (parse_counted _ _ _ _ E) as (rest & p & _ & S & _).
  apply consumed_bound in S; exact S.
Qed.
Lemma limit_exact : forall sgn report limit r, parse sgn report limit = Ok r ->
  (md_error (pr_metadata r) = RE_REPORT_TOO_LARGE
   <-> (words_of_result r <> [] /\ (limit <= groups_counted r)%nat)).
Proof.
  intros sgn report limit r E; destruct (parse_counted _ _ _ _ E) as (rest & p & T & S & R & Ty & Er & _ & _).
  unfold groups_counted; rewrite Ty, Er.
  assert (X : (if untyped_metar (words_of_result r) (st_type (ps_status p)) then 1 else 0)
              = extra (words_of_result r) (ps_status p)) by (destruct (words_of_result r); reflexivity).
  rewrite X; clear X.
  pose proof (counted_steps _ _ _ S) as C.
  destruct (isError (ps_status p)) eqn:Ep.
  - rewrite (cn_error _ _ _ C Ep) || idtac.
    pose proof (error_state _ _ _ S Ep) as Es.
    assert (Ef : finalTransition (ps_status p) = ps_status p) by (unfold finalTransition; rewrite Es; reflexivity).
    rewrite Ef, (cn_error _ _ _ C Ep); split; [intros A; split; [|exact A] | intros [_ A]; exact A].
    intros N; rewrite N in C; rewrite (cn_first _ _ _ C eq_refl) in Ep; discriminate Ep.
  - destruct (cn_count _ _ _ C Ep) as [Cn Lt]; apply not_error in Ep; split.
    + intros A; exfalso; revert A Ep; destruct (ps_status p) as [s t e]; cbn; intros A ->; destruct s; discriminate A.
    + intros [N L]; destruct Lt as [Lt|Lt]; [contradiction | lia].
Qed.
Lemma limit_bounds_size : forall sgn report limit r, parse sgn report limit = Ok r ->
  (length (pr_groups r) <= 2 * Nat.max 1 limit)%nat.
Proof.
  intros sgn report limit r E; pose proof (limit_bounds_work _ _ _ _ E); pose proof (result_size _ _ _ _ E); lia.
Qed.

(** ** Independence of the limit *)
Lemma count_group_limit : forall L L' n st, (L <= L')%nat ->
  (st_error (snd (count_group L n st)) <> RE_REPORT_TOO_LARGE) -> count_group L' n st = count_group L n st.
Proof.
  intros L L' n st Le N; unfold count_group in *.
  destruct (Nat.leb L (S n)) eqn:A; [exfalso; apply N; reflexivity|].
  apply Nat.leb_gt in A; replace (Nat.leb L' (S n)) with false; [reflexivity|]; symmetry; apply Nat.leb_gt; lia.
Qed.
Lemma loop_limit : forall L L' s md fuel n st g part m st', (L <= L')%nat ->
  parse_group_loop fuel L s md n st = Ok (g, part, m, st') -> st_error st' <> RE_REPORT_TOO_LARGE ->
  parse_group_loop fuel L' s md n st = Ok (g, part, m, st').
Proof.
  intros L L' s md fuel; induction fuel as [|fuel IH]; intros n st g part m st' Le H N; [discriminate H|].
  cbn [parse_group_loop] in *.
  apply bind_ok in H; destruct H as (g0 & -> & H); cbn [bind].
  assert (X : count_group L' n (transition st (getSyntaxGroup g0)) = count_group L n (transition st (getSyntaxGroup g0))).
  { apply count_group_limit; [exact Le|]; intros A.
    destruct (count_group L n (transition st (getSyntaxGroup g0))) as [c st1] eqn:C; cbn [snd] in A.
    assert (Ee : isError st1 = true) by (unfold isError; rewrite A; reflexivity).
    rewrite Ee, andb_false_r in H; injection H as _ _ _ <-; contradiction. }
  rewrite X; destruct (count_group L n (transition st (getSyntaxGroup g0))) as [c st1].
  destruct (isReparseRequired st1 && negb (isError st1)); [apply IH; assumption | exact H].
Qed.
Lemma step_limit : forall L L' s p q, (L <= L')%nat -> parse_step L s p = Ok q ->
  st_error (ps_status q) <> RE_REPORT_TOO_LARGE -> parse_step L' s p = Ok q.
Proof.
  intros L L' s p q Le H N; unfold parse_step in *; apply bind_ok in H; destruct H as ((l & b) & -> & H); cbn [bind].
  destruct b; cbn [negb] in *.
  - destruct (count_group L (ps_count p) (ps_status p)) as [c st] eqn:C.
    rewrite (count_group_limit L L'); rewrite ?C; [exact H | exact Le|].
    injection H as <-; exact N.
  - apply bind_ok in H; destruct H as ((((g & part) & c) & st) & E & H).
    pose proof H as H0; apply bind_ok in H0; destruct H0 as (md & _ & H0); injection H0 as <-; cbn [ps_status] in N.
    rewrite (loop_limit L L' _ _ _ _ _ _ _ _ _ Le E N); exact H.
Qed.
Lemma step_all_limit : forall L L' toks p q, (L <= L')%nat -> st_error (ps_status q) <> RE_REPORT_TOO_LARGE ->
  step_all L toks p = Ok q -> step_all L' toks p = Ok q.
Proof.
  intros L L' toks; induction toks as [|s toks IH]; intros p q Le N H; [exact H|].
  cbn [step_all] in *; destruct (isError (ps_status p)); [exact H|].
  apply bind_ok in H; destruct H as (p' & E & H).
  rewrite (step_limit L L' s p p'); [cbn [bind]; apply IH; assumption | exact Le | exact E |].
  intros A; assert (Ee : isError (ps_status p') = true) by (unfold isError; rewrite A; reflexivity).
  destruct toks; cbn [step_all] in H; [injection H as <-; contradiction|].
  rewrite Ee in H; injection H as <-; contradiction.
Qed.
Lemma limit_monotone : forall sgn report L L' r, (L <= L')%nat -> parse sgn report L = Ok r ->
  md_error (pr_metadata r) <> RE_REPORT_TOO_LARGE -> parse sgn report L' = Ok r.
Proof.
  intros sgn report L L' r Le E N; pose proof E as E0; rewrite parse_eq_parse_groups in E |- *; unfold parse_groups in *.
  apply bind_ok in E; destruct E as (p & E & E2).
  rewrite (step_all_limit L L' _ ps_init p Le); [exact E2 | | exact E].
  intros A; apply N; apply parse_end_inv in E2; destruct E2 as (l & _ & -> & _); cbn.
  destruct (parse_inv _ _ _ _ E0) as (used & rest & p' & T & S & _).
  assert (St : st_state (ps_status p) = St_ERROR).
  { destruct (steps_of_step_all L _ [] ps_init p (Steps_nil _) E) as (u & w & _ & S' & _).
    apply (error_state _ _ _ S'); unfold isError; rewrite A; reflexivity. }
  destruct (ps_status p) as [s0 t0 e0]; cbn in St, A; subst; reflexivity.
Qed.
Lemma limit_irrelevant : forall sgn report L L' r r', parse sgn report L = Ok r -> parse sgn report L' = Ok r' ->
  md_error (pr_metadata r) <> RE_REPORT_TOO_LARGE -> md_error (pr_metadata r') <> RE_REPORT_TOO_LARGE -> r = r'.
Proof.
  intros sgn report L L' r r' E E' N N'; destruct (Nat.le_ge_cases L L') as [Le|Le].
  - rewrite (limit_monotone _ _ _ _ _ Le E N) in E'; injection E'; auto.
  - rewrite (limit_monotone _ _ _ _ _ Le E' N') in E; injection E; auto.
Qed.
