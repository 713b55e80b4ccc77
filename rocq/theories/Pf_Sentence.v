(** C56: a report read group by group. *)
From Coq Require Import Lia.
From Verif Require Import Prim Lib Regex Float Values Weather Groups1 Groups2 Groups3 Groups4 Parser SpecTokens SpecReads SpecText
  SpecReach SpecBuilt SpecAssembled SpecOpenings SpecSentence.
From Verif Require Import Pf_Tokens Pf_Ok Pf_Caps Pf_Regex Pf_Total Pf_Steps Pf_Kinds Pf_View Pf_Fresh Pf_Words Pf_Built Pf_Grown Pf_OneKind Pf_TimeOnly.
Local Open Scope string_scope.

(** ** Texts in order *)
Inductive Continued (part : ReportPart) (now : option MetafTime) : Group -> list string -> Group -> Prop :=
| Continued_end : forall g, Continued part now g [] g
| Continued_word : forall g w md g1 ws g2, md_reportTime md = now -> Group_append g w part md = Ok (g1, APPENDED) ->
    Continued part now g1 ws g2 -> Continued part now g (w :: ws) g2.
Lemma continued_snoc : forall part now g ws g1, Continued part now g ws g1 -> forall w md g2, md_reportTime md = now ->
  Group_append g1 w part md = Ok (g2, APPENDED) -> Continued part now g (ws ++ [w])%list g2.
Proof.
  intros part now g ws g1 H; induction H as [g|g x md0 g1 ws g2 T A C IH]; intros w md g3 T' A'; cbn [app].
  - eapply Continued_word; [exact T'|exact A'|constructor].
  - eapply Continued_word; [exact T|exact A|]. eapply IH; eassumption.
Qed.
Lemma assembled_split : forall part now ws g, Assembled part now ws g ->
  exists w ws' p md g0, ws = w :: ws' /\ In p alternatives /\ md_reportTime md = now /\ p w part md = Ok (Some g0) /\ Continued part now g0 ws' g.
Proof.
  intros part now ws g H; induction H as [w md p g T I P|ws w md g g' B IH T A].
  - exists w, [], p, md, g. repeat (split; [first [reflexivity|assumption]|]). apply Continued_end.
  - destruct IH as (w0 & ws' & p & md0 & g0 & -> & I & T0 & P & C). exists w0, (ws' ++ [w])%list, p, md0, g0.
    repeat (split; [first [reflexivity|assumption]|]). exact (continued_snoc _ _ _ _ _ C w md g' T A).
Qed.
Lemma continued_nil : forall part now g g', Continued part now g [] g' -> g = g'.
Proof. intros part now g g' H. inversion H. reflexivity. Qed.
Lemma continued_index : forall part now g ws g', Continued part now g ws g' -> Group_index g' = Group_index g.
Proof.
  intros part now g ws g' H; induction H as [g|g w md g1 ws g2 T A C IH]; [reflexivity|]. rewrite IH. exact (append_index _ _ _ _ _ _ A).
Qed.
(** The word as read in any state of the report with the same time *)
Lemma first_parsed : forall p w part md md' g, In p alternatives -> p w part md = Ok (Some g) -> md_reportTime md = md_reportTime md' ->
  ~ shared part w \/ Group_index g = 6%nat -> GroupParser_parse w part md' = Ok g.
Proof.
  intros p w part md md' g I P T Hs. rewrite (parse_time p w part md md' I T) in P.
  destruct (first_of w part md' alternatives (incl_refl _)) as (h & Hh & R). unfold GroupParser_parse. rewrite Hh. f_equal.
  destruct R as [(q & Q & E)|[_ N]]; [|rewrite (N p I) in P; discriminate P].
  apply parsed_inv in P; [|exact I]. pose proof E as E'. apply parsed_inv in E'; [|exact Q].
  destruct (parsed_two _ _ _ _ _ P E') as [->|[K D]]; [reflexivity|]. destruct Hs as [Hs|Hs]; [contradiction|].
  destruct D as [[D1 D2]|[D1 D2]]; [|rewrite Hs in D1; discriminate D1].
  destruct (both_kinds_read w part md' K) as [(c & C & G) _]. unfold GroupParser_parse in G. rewrite G in Hh. injection Hh as <-. discriminate D2.
Qed.
Lemma reach_first : forall p w part md g, In p alternatives -> p w part md = Ok (Some g) -> Reachable g.
Proof. intros p w part md g I P. eapply reach_parsed. eapply parsed_inv; eassumption. Qed.

(** ** Steps of the parser inside the body and the remarks *)
Definition in_body (type : ReportType) (part : ReportPart) (st : Status) : Prop :=
  st_error st = RE_NONE /\ st_type st = type
  /\ match part, type with
     | RP_METAR, RT_METAR => In (st_state st) [St_REPORT_BODY_BEGIN_METAR; St_REPORT_BODY_METAR]
     | RP_TAF, RT_TAF => In (st_state st) [St_REPORT_BODY_BEGIN_TAF; St_REPORT_BODY_TAF]
     | RP_RMK, RT_METAR => st_state st = St_REMARK_METAR
     | RP_RMK, RT_TAF => st_state st = St_REMARK_TAF
     | _, _ => False
     end.
Definition begun (st : Status) : Prop := finalTransition st = st.
Lemma in_body_cases : forall type part st, in_body type part st ->
  In (type, part, st) [ (RT_METAR, RP_METAR, mkStatus St_REPORT_BODY_BEGIN_METAR RT_METAR RE_NONE); (RT_METAR, RP_METAR, mkStatus St_REPORT_BODY_METAR RT_METAR RE_NONE);
    (RT_TAF, RP_TAF, mkStatus St_REPORT_BODY_BEGIN_TAF RT_TAF RE_NONE); (RT_TAF, RP_TAF, mkStatus St_REPORT_BODY_TAF RT_TAF RE_NONE);
    (RT_METAR, RP_RMK, mkStatus St_REMARK_METAR RT_METAR RE_NONE); (RT_TAF, RP_RMK, mkStatus St_REMARK_TAF RT_TAF RE_NONE) ].
Proof.
  intros type part [s t e] (E & T & H). cbn [st_error st_type st_state] in *. subst e t.
  destruct part, type; try contradiction; cbn [In] in H |- *; [destruct H as [<-|[<-|[]]]|destruct H as [<-|[<-|[]]]|subst|subst]; auto 10.
Qed.
Ltac by_state H := apply in_body_cases in H; cbn [In] in H; repeat (destruct H as [H|H]; [injection H as <- <- <-|]); try destruct H.
Lemma body_part_of : forall type part st, in_body type part st -> getReportPart st = part.
Proof. intros type part st H. by_state H; reflexivity. Qed.
Lemma body_no_error : forall type part st, in_body type part st -> isError st = false.
Proof. intros type part st H. by_state H; reflexivity. Qed.
Lemma body_not_header : forall type part st, in_body type part st -> part <> RP_HEADER.
Proof. intros type part st H. by_state H; discriminate. Qed.
Lemma body_next : forall type part st g, in_body type part st -> plain_group type g ->
  in_body type part (transition st (getSyntaxGroup g)) /\ begun (transition st (getSyntaxGroup g)) /\ isReparseRequired (transition st (getSyntaxGroup g)) = false.
Proof.
  intros type part st g H P.
  assert (X : ~ In (getSyntaxGroup g) [SG_NIL; SG_CNL; SG_RMK] /\ (getSyntaxGroup g = SG_MAINTENANCE_INDICATOR -> type = RT_METAR)).
  { destruct g; cbn [getSyntaxGroup]; try (split; [cbn; intuition discriminate|discriminate]).
    - destruct (P _ eq_refl) as [A B]. split; [intros I; apply A|intros I; apply B]; destruct (kw_t g); cbn in I |- *; intuition discriminate.
    - destruct (Trend_isTimeSpanGroup g); (split; [cbn; intuition discriminate|discriminate]). }
  destruct X as [X Y]. unfold begun, in_body.
  by_state H; destruct (getSyntaxGroup g); cbn in *; try (exfalso; apply X; tauto); try (specialize (Y eq_refl); discriminate Y); repeat split; try reflexivity; auto.
Qed.
Record at_point (limit : nat) (type : ReportType) (part : ReportPart) (now : option MetafTime) (n : nat) (p : ParserState) : Prop := At
  { at_body : in_body type part (ps_status p); at_time : md_reportTime (ps_md p) = now; at_count : ps_count p = n }.
Lemma step_new : forall limit type part now n p w l g, at_point limit type part now n p -> (S n < limit)%nat ->
  appendToLastResultGroup (ps_groups p) w part (ps_md p) = Ok (l, false) -> GroupParser_parse w part (ps_md p) = Ok g -> plain_group type g ->
  exists q, parse_step limit w p = Ok q /\ at_point limit type part now (S n) q /\ begun (ps_status q) /\ ps_groups q = addGroupToResult l g part w.
Proof.
  intros limit type part now n p w l g [B T C] L A G P. unfold parse_step. rewrite (body_part_of _ _ _ B), A. cbn [bind negb parse_group_loop].
  rewrite (body_part_of _ _ _ B), G. cbn [bind]. destruct (body_next _ _ _ g B P) as (B' & F & R).
  unfold count_group. rewrite C. destruct (Nat.leb_spec limit (S n)) as [X|_]; [lia|]. rewrite R. cbn [andb bind].
  assert (Rg : Reachable g). { destruct (GroupParser_parse_inv _ _ _ _ G) as [[->|K] _]; [constructor|eapply reach_parsed; exact K]. }
  pose proof (ok_updateMetadata g (ps_md p) Rg) as U. destruct (updateMetadata g (ps_md p)) as [md'|] eqn:E; [|destruct U]. cbn [bind].
  eexists. split; [reflexivity|]. cbn [ps_status ps_groups]. repeat split; cbn [ps_status ps_md ps_count]; try apply B'; try assumption.
  destruct (time_kept _ _ _ E) as [->|[t ->]]; [exact T|]. destruct (body_not_header _ _ _ B (report_time_header _ _ _ _ G)).
Qed.
Lemma step_more : forall limit type part now n p w l, at_point limit type part now n p -> (S n < limit)%nat ->
  appendToLastResultGroup (ps_groups p) w part (ps_md p) = Ok (l, true) ->
  exists q, parse_step limit w p = Ok q /\ at_point limit type part now (S n) q /\ ps_status q = ps_status p /\ ps_groups q = l.
Proof.
  intros limit type part now n p w l [B T C] L A. unfold parse_step. rewrite (body_part_of _ _ _ B), A. cbn [bind negb]. unfold count_group. rewrite C.
  destruct (Nat.leb_spec limit (S n)) as [X|_]; [lia|]. eexists. split; [reflexivity|]. repeat split; cbn [ps_status ps_md ps_count]; try apply B; assumption.
Qed.
Lemma step_all_app : forall limit a b p q, step_all limit a p = Ok q -> step_all limit (a ++ b) p = step_all limit b q.
Proof.
  intros limit. induction a as [|w a IH]; intros b p q H; cbn [step_all app] in *; [injection H as ->; reflexivity|].
  destruct (isError (ps_status p)) eqn:E; [injection H as <-; symmetry; apply step_all_error; exact E|].
  destruct (parse_step limit w p) as [p'|]; cbn [bind] in *; [exact (IH _ _ _ H)|discriminate H].
Qed.
Lemma step_one : forall limit type part now n p w ws q, at_point limit type part now n p -> parse_step limit w p = Ok q ->
  step_all limit (w :: ws) p = step_all limit ws q.
Proof. intros limit type part now n p w ws q B E. cbn [step_all]. rewrite (body_no_error _ _ _ (at_body _ _ _ _ _ _ B)), E. reflexivity. Qed.

(** The text of a group *)
Fixpoint spread (raw : string) (ws : list string) : string := match ws with [] => raw | w :: ws' => spread (raw ++ String " " w) ws' end.
Lemma spread_app : forall ws a b, spread (a ++ b) ws = a ++ spread b ws.
Proof. induction ws as [|w ws IH]; intros a b; cbn [spread]; [reflexivity|]. rewrite app_assoc_str. apply IH. Qed.
Lemma spread_concat : forall ws w, spread w ws = String.concat " " (w :: ws).
Proof.
  induction ws as [|x ws IH]; intros w; [reflexivity|]. cbn [spread]. rewrite spread_app. change (w ++ spread (String " " x) ws = w ++ " " ++ String.concat " " (x :: ws)).
  rewrite <- IH. change (String " " x) with (" " ++ x). rewrite spread_app. reflexivity.
Qed.
Lemma add_known : forall l g part s, is_fallback g = false -> addGroupToResult l g part s = mkGroupInfo g part s :: l.
Proof. intros [|i l] g part s F; cbn [addGroupToResult]; rewrite ?F; reflexivity. Qed.
Lemma known_index : forall g g', Group_index g = Group_index g' -> is_fallback g = false -> is_fallback g' = false.
Proof. intros g g' E F. destruct g, g'; try discriminate E; try discriminate F; reflexivity. Qed.
Lemma known_first : forall p w part md g, In p alternatives -> p w part md = Ok (Some g) -> is_fallback g = false.
Proof. intros p w part md g I P. apply parsed_inv in P; [|exact I]. destruct g; try reflexivity. destruct P. Qed.

Lemma run_more : forall limit type part now g ws g', Continued part now g ws g' -> is_fallback g = false -> forall n p raw l,
  at_point limit type part now n p -> (n + length ws < limit)%nat -> ps_groups p = mkGroupInfo g part raw :: l ->
  exists q, step_all limit ws p = Ok q /\ at_point limit type part now (n + length ws) q /\ ps_status q = ps_status p /\ ps_groups q = mkGroupInfo g' part (spread raw ws) :: l.
Proof.
  intros limit type part now g ws g' H; induction H as [g|g w md g1 ws g2 T A C IH]; intros F n p raw l B L G.
  - exists p. cbn [step_all length spread]. rewrite Nat.add_0_r. auto.
  - cbn [length] in L. assert (X : appendToLastResultGroup (ps_groups p) w part (ps_md p) = Ok (mkGroupInfo g1 part (raw ++ String " " w) :: l, true)).
    { rewrite G. cbn [appendToLastResultGroup gi_group gi_reportPart gi_rawString]. rewrite F, (append_time g w part (ps_md p) md), A by (rewrite T; apply B). reflexivity. }
    destruct (step_more limit type part now n p w _ B ltac:(lia) X) as (p1 & E & B1 & S1 & G1).
    destruct (IH (known_index _ _ (eq_sym (append_index _ _ _ _ _ _ A)) F) (S n) p1 _ l B1 ltac:(lia) G1) as (q & E2 & B2 & S2 & G2).
    exists q. rewrite (step_one _ _ _ _ _ _ _ _ _ B E). cbn [length spread]. rewrite Nat.add_succ_r. rewrite <- S1. auto.
Qed.
Lemma plain_first : forall type part now g ws g', Continued part now g ws g' -> plain_group type g' -> plain_group type g.
Proof.
  intros type part now g ws g' H P k E. destruct H as [g|g w md g1 ws g2 T A C]; [exact (P k E)|]. subst g. discriminate A.
Qed.
Lemma plain_spoiled : forall type part now md g ws g' next, md_reportTime md = now -> Continued part now g ws g' -> spoils part now g' next -> plain_group type g.
Proof.
  intros type part now md g ws g' next T0 H X k E. exfalso. destruct H as [g|g w md' g1 ws g2 T A C]; [|subst g; discriminate A]. subst g.
  destruct (X md T0) as (g' & Y). discriminate Y.
Qed.
Lemma plain_refused : forall type part now md g next g', md_reportTime md = now -> refuses part now g next g' -> plain_group type g' -> plain_group type g /\ Group_index g' = Group_index g.
Proof.
  intros type part now md g next g' T R P. pose proof (R md T) as A. split; [|exact (append_index _ _ _ _ _ _ A)]. intros k ->. injection A as <-. exact (P k eq_refl).
Qed.
(** A group and the word after it *)
Definition leaves (part : ReportPart) (now : option MetafTime) (l : list GroupInfo) (next : string) (l' : list GroupInfo) : Prop :=
  forall md, md_reportTime md = now -> appendToLastResultGroup l next part md = Ok (l', false).
Lemma leaves_refused : forall part now g g' raw l next, is_fallback g = false -> refuses part now g next g' ->
  leaves part now (mkGroupInfo g part raw :: l) next (mkGroupInfo g' part raw :: l).
Proof. intros part now g g' raw l next F R md T. cbn [appendToLastResultGroup gi_group gi_reportPart gi_rawString]. rewrite F, (R md T). reflexivity. Qed.
Lemma leaves_unknown : forall part now u raw l next, leaves part now (mkGroupInfo (GUnknown u) part raw :: l) next (mkGroupInfo (GUnknown u) part raw :: l).
Proof. intros part now u raw l next md T. reflexivity. Qed.
Lemma unread_unknown : forall part now w md, unread part now w -> md_reportTime md = now -> GroupParser_parse w part md = Ok (GUnknown mkUnknown).
Proof.
  intros part now w md U T. destruct (first_of w part md alternatives (incl_refl _)) as (h & Hh & R). unfold GroupParser_parse. rewrite Hh. f_equal.
  destruct R as [(q & Q & E)|[H _]]; [|exact H]. rewrite (U q md Q T) in E. discriminate E.
Qed.
Lemma leaves_added : forall part now l u raw next, leaves part now (addGroupToResult l (GUnknown u) part raw) next (addGroupToResult l (GUnknown u) part raw).
Proof.
  intros part now l u raw next md T. destruct l as [|i l]; [reflexivity|]. cbn [addGroupToResult is_fallback andb]. destruct (is_fallback (gi_group i)) eqn:E; cbn [appendToLastResultGroup gi_group]; [rewrite E|]; reflexivity.
Qed.
Lemma assembled_built : forall part now ws g, Assembled part now ws g -> ~ shared part (hd "" ws) -> Built part ws g /\ ws <> [].
Proof.
  intros part now ws g H; induction H as [w md p g T I P|ws w md g g' B IH T A]; intros N.
  - split; [|discriminate]. eapply Built_first. exact (first_parsed p w part md md g I P eq_refl (or_introl N)).
  - destruct ws as [|x ws]; [inversion B as [|a b]; destruct a; discriminate|]. destruct (IH N) as [Bu _]. split; [eapply Built_more; eassumption|discriminate].
Qed.
Lemma words_spread : forall ws raw, Forall token ws -> words_of (spread raw ws) = (words_of raw ++ ws)%list.
Proof.
  induction ws as [|w ws IH]; intros raw H; cbn [spread]; [rewrite app_nil_r; reflexivity|]. inv H. rewrite IH by assumption. rewrite words_app, (words_token w) by assumption.
  rewrite <- app_assoc. reflexivity.
Qed.
Lemma spaced_spread : forall ws raw, spaced raw -> spaced (spread raw ws).
Proof.
  induction ws as [|w ws IH]; intros raw H; cbn [spread]; [exact H|]. apply IH. apply spaced_app.
Qed.
Lemma leaves_spoiled : forall part now w ws g l next, Assembled part now (w :: ws) g -> ~ shared part w -> Forall token (w :: ws) -> is_fallback g = false ->
  spoils part now g next -> leaves part now (mkGroupInfo g part (spread w ws) :: l) next (addGroupToResult l (GUnknown mkUnknown) part (spread w ws)).
Proof.
  intros part now w ws g l next A N Tk F Sp md T. cbn [appendToLastResultGroup gi_group gi_reportPart gi_rawString]. rewrite F. destruct (Sp md T) as (g' & E). rewrite E. cbn [bind].
  assert (R : GroupParser_reparse (spread w ws) part md g' = Ok (GUnknown mkUnknown)).
  { rewrite (reparse_index _ _ _ g' g (append_index _ _ _ _ _ _ E)). destruct (assembled_built _ _ _ _ A N) as [Bu _]. destruct ws as [|x ws].
    - cbn [spread]. destruct (assembled_split _ _ _ _ A) as (w0 & ws' & p & md0 & g0 & X & I & T0 & P & C). injection X as <- <-. apply continued_nil in C. subst g0.
      apply no_other_kind; [exact N|]. exact (first_parsed p w part md0 md g I P (eq_trans T0 (eq_sym T)) (or_introl N)).
    - rewrite GroupParser_reparse_eq. destruct (next_of (spread w (x :: ws)) part md (Group_index g) alternatives 0 (incl_refl _)) as (h & Hh & _). rewrite Hh. f_equal.
      refine (reparse_spaced part (spread w (x :: ws)) g md h g' next part _ _ F E _).
      + inv Tk. rewrite words_spread by assumption. rewrite (words_token w) by assumption. exact Bu.
      + cbn [spread]. apply spaced_spread, spaced_app.
      + rewrite (reparse_index _ _ _ g' g (append_index _ _ _ _ _ _ E)), GroupParser_reparse_eq. exact Hh. }
  rewrite R. reflexivity.
Qed.

(** FG, FU, BLSN, BLDU or BLSA, when no layer follows *)
Lemma nearby_run : forall limit type part now w ws v c next, shared part w -> Assembled part now (w :: ws) (GVicinity v) -> Assembled part now [w] (GCloud c) ->
  spoils part now (GCloud c) (hd next ws) -> forall n p l, at_point limit type part now n p -> (n + length (w :: ws) < limit)%nat -> leaves part now (ps_groups p) w l ->
  exists q, step_all limit (w :: ws) p = Ok q /\ at_point limit type part now (n + length (w :: ws)) q /\ begun (ps_status q)
    /\ match ws with
       | [] => forall md, md_reportTime md = now ->
           appendToLastResultGroup (ps_groups q) next part md = appendToLastResultGroup_noReparse (mkGroupInfo (GVicinity v) part w :: l) next part md
       | _ => ps_groups q = mkGroupInfo (GVicinity v) part (spread w ws) :: l
       end.
Proof.
  intros limit type part now w ws v c next Sh A Ac Sp n p l B L Lv.
  destruct (both_kinds_read w part (ps_md p) Sh) as [(c0 & C0 & G0) (v0 & V0 & _)].
  destruct (assembled_split _ _ _ _ Ac) as (w1 & ws1 & p1 & md1 & g1 & X & I1 & T1 & P1 & C1). injection X as <- <-. apply continued_nil in C1. subst g1.
  assert (c0 = c). { pose proof P1 as Q. rewrite (parse_time p1 w part md1 (ps_md p) I1) in Q by (rewrite T1; symmetry; apply B). apply parsed_inv in Q; [|exact I1]. cbn [parsed_as] in Q. rewrite Q in C0. injection C0 as ->. reflexivity. } subst c0.
  destruct (assembled_split _ _ _ _ A) as (w2 & ws2 & p2 & md2 & g2 & X & I2 & T2 & P2 & C2). injection X as <- <-.
  assert (g2 = GVicinity v0).
  { pose proof (continued_index _ _ _ _ _ C2) as J. destruct g2; try discriminate J. f_equal. rewrite (parse_time p2 w part md2 (ps_md p) I2) in P2 by (rewrite T2; symmetry; apply B).
    apply parsed_inv in P2; [|exact I2]. cbn [parsed_as] in P2. rewrite P2 in V0. injection V0 as ->. reflexivity. } subst g2.
  destruct (step_new limit type part now n p w l (GCloud c) B ltac:(cbn [length] in L; lia)) as (q1 & E1 & B1 & F1 & G1); [apply Lv, B|exact G0|intros k X; discriminate X|].
  rewrite (add_known l (GCloud c) part w eq_refl) in G1. rewrite (step_one _ _ _ _ _ _ _ _ _ B E1).
  assert (Re : forall x md, md_reportTime md = now -> (exists g', Group_append (GCloud c) x part md = Ok (g', GROUP_INVALIDATED)) ->
    appendToLastResultGroup (ps_groups q1) x part md = appendToLastResultGroup_noReparse (mkGroupInfo (GVicinity v0) part w :: l) x part md).
  { intros x md T (g' & E). rewrite G1. cbn [appendToLastResultGroup gi_group gi_reportPart gi_rawString is_fallback]. rewrite E. cbn [bind].
    rewrite (reparse_index _ _ _ g' (GCloud c) (append_index _ _ _ _ _ _ E)). destruct (both_kinds_read w part md Sh) as [_ (v1 & V1 & R1)]. rewrite R1. cbn [bind is_fallback].
    assert (v1 = v0). { assert (Y : alternative GVicinity VicinityGroup_parse w part md = alternative GVicinity VicinityGroup_parse w part (ps_md p)) by (apply parse_time; [cbn; tauto|rewrite T; symmetry; apply B]).
      unfold alternative in Y. rewrite V0, V1 in Y. injection Y as ->. reflexivity. } subst v1. rewrite (add_known l (GVicinity v0) part w eq_refl). reflexivity. }
  destruct ws as [|x ws].
  + apply continued_nil in C2. injection C2 as ->. exists q1. cbn [step_all length]. rewrite Nat.add_1_r. repeat (split; [assumption || reflexivity|]).
    intros md T. exact (Re next md T (Sp md T)).
  + inversion C2 as [|a b md3 g3 d e T3 A3 C3]; subst a b d e. cbn [hd] in Sp.
    assert (Ap : appendToLastResultGroup (ps_groups q1) x part (ps_md q1) = Ok (mkGroupInfo g3 part (w ++ String " " x) :: l, true)).
    { rewrite (Re x (ps_md q1) (at_time _ _ _ _ _ _ B1) (Sp _ (at_time _ _ _ _ _ _ B1))). cbn [appendToLastResultGroup_noReparse gi_group gi_reportPart gi_rawString is_fallback].
      rewrite (append_time (GVicinity v0) x part (ps_md q1) md3), A3 by (rewrite T3; apply B1). reflexivity. }
    cbn [length] in L. destruct (step_more limit type part now (S n) q1 x _ B1 ltac:(lia) Ap) as (q2 & E2 & B2 & S2 & G2).
    rewrite (step_one _ _ _ _ _ _ _ _ _ B1 E2).
    pose proof (known_index _ _ (eq_sym (append_index _ _ _ _ _ _ A3)) eq_refl) as K3.
    destruct (run_more limit type part now g3 ws (GVicinity v) C3 K3 (S (S n)) q2 _ l B2 ltac:(lia) G2) as (q & E3 & B3 & S3 & G3).
    exists q. cbn [length]. rewrite !Nat.add_succ_r, <- !Nat.add_succ_l. split; [exact E3|]. split; [exact B3|]. rewrite S3, S2. split; [exact F1|exact G3].
Qed.
Lemma nearby_built : forall part now ws g, Assembled part now ws g -> shared part (hd "" ws) -> Group_index g = 19%nat -> Built part ws g.
Proof.
  intros part now ws g H; induction H as [w md p g T I P|ws w md g g' B IH T A]; intros Sh E.
  - cbn [hd] in Sh. destruct g as [| | | | | | | | | | | | | | | | | | |v| |]; try discriminate E. apply parsed_inv in P; [|exact I]. cbn [parsed_as] in P.
    destruct (both_kinds_read w part md Sh) as [(c & C & G) (v0 & V & R)]. rewrite P in V. injection V as <-. eapply Built_again; [eapply Built_first; exact G|apply R].
  - destruct ws as [|x ws]; [inversion B as [|a b]; destruct a; discriminate|]. eapply Built_more; [|exact A]. apply IH; [exact Sh|]. rewrite <- E. symmetry. exact (append_index _ _ _ _ _ _ A).
Qed.
Lemma spaced_spoiled : forall part now w x ws g l next, Built part (w :: x :: ws) g -> Forall token (w :: x :: ws) -> is_fallback g = false ->
  spoils part now g next -> leaves part now (mkGroupInfo g part (spread w (x :: ws)) :: l) next (addGroupToResult l (GUnknown mkUnknown) part (spread w (x :: ws))).
Proof.
  intros part now w x ws g l next Bu Tk F Sp md T. cbn [appendToLastResultGroup gi_group gi_reportPart gi_rawString]. rewrite F. destruct (Sp md T) as (g' & E). rewrite E. cbn [bind].
  assert (R : GroupParser_reparse (spread w (x :: ws)) part md g' = Ok (GUnknown mkUnknown)).
  { rewrite (reparse_index _ _ _ g' g (append_index _ _ _ _ _ _ E)).
    rewrite GroupParser_reparse_eq. destruct (next_of (spread w (x :: ws)) part md (Group_index g) alternatives 0 (incl_refl _)) as (h & Hh & _). rewrite Hh. f_equal.
    refine (reparse_spaced part (spread w (x :: ws)) g md h g' next part _ _ F E _).
    + inv Tk. rewrite words_spread by assumption. rewrite (words_token w) by assumption. exact Bu.
    + cbn [spread]. apply spaced_spread, spaced_app.
    + rewrite (reparse_index _ _ _ g' g (append_index _ _ _ _ _ _ E)), GroupParser_reparse_eq. exact Hh. }
  rewrite R. reflexivity.
Qed.

Lemma item_run : forall limit type part now ws next g, Item part now ws next g -> plain_group type g -> Forall token ws ->
  forall n p l, at_point limit type part now n p -> (n + length ws < limit)%nat -> leaves part now (ps_groups p) (hd "" ws) l ->
  exists q, step_all limit ws p = Ok q /\ at_point limit type part now (n + length ws) q /\ begun (ps_status q)
    /\ leaves part now (ps_groups q) next (addGroupToResult l g part (String.concat " " ws)).
Proof.
  assert (Known : forall limit type part now w ws p0 md g0 g n p l, In p0 alternatives -> md_reportTime md = now -> p0 w part md = Ok (Some g0) ->
    ~ shared part w \/ Group_index g0 = 6%nat -> plain_group type g0 -> Continued part now g0 ws g ->
    at_point limit type part now n p -> (n + S (length ws) < limit)%nat -> leaves part now (ps_groups p) w l ->
    exists q, step_all limit (w :: ws) p = Ok q /\ at_point limit type part now (n + S (length ws)) q /\ begun (ps_status q) /\ ps_groups q = mkGroupInfo g part (spread w ws) :: l).
  { intros limit type part now w ws p0 md g0 g n p l I T P N Pl C B L Lv.
    destruct (step_new limit type part now n p w l g0 B ltac:(lia)) as (p1 & E1 & B1 & F1 & G1); [apply Lv, B|eapply first_parsed; [exact I|exact P|rewrite T; symmetry; apply B|exact N]|exact Pl|].
    pose proof (known_first _ _ _ _ _ I P) as K. rewrite (add_known _ _ _ _ K) in G1.
    destruct (run_more limit type part now g0 ws g C K (S n) p1 w l B1 ltac:(lia) G1) as (q & E2 & B2 & S2 & G2).
    exists q. rewrite (step_one _ _ _ _ _ _ _ _ _ B E1), Nat.add_succ_r. rewrite S2. auto. }
  intros limit type part now ws next g H Pl Tk n p l B L Lv. destruct H as [ws next g g' A N R|w ws next v v' c Sh A Ac Sp R|w ws next v c Sh Nw A Ac Sp Sv|w next U|ws next g A N Sp].
  - destruct (assembled_split _ _ _ _ A) as (w & ws' & p0 & md & g0 & -> & I & T & P & C).
    destruct (plain_refused type part now md g next g' T R Pl) as [Pl' J].
    pose proof (known_first _ _ _ _ _ I P) as K. pose proof (known_index _ _ (eq_sym (continued_index _ _ _ _ _ C)) K) as K'. pose proof (known_index _ _ (eq_sym J) K') as K''.
    destruct (Known limit type part now w ws' p0 md g0 g n p l I T P) as (q & E & Bq & F & G); try assumption.
    { destruct N as [N|[c ->]]; [left; exact N|right; rewrite <- (continued_index _ _ _ _ _ C); reflexivity]. }
    { exact (plain_first _ _ _ _ _ _ C Pl'). }
    exists q. repeat (split; [assumption|]). rewrite (add_known _ _ _ _ K''), G, <- spread_concat. apply leaves_refused; assumption.
  - destruct (nearby_run limit type part now w ws v c next Sh A Ac Sp n p l B L Lv) as (q & E & Bq & F & G). exists q. repeat (split; [assumption|]).
    rewrite (add_known l (GVicinity v') _ _ eq_refl). destruct ws as [|x ws].
    + intros md T. rewrite (G md T). cbn [appendToLastResultGroup_noReparse gi_group gi_reportPart gi_rawString is_fallback]. rewrite (R md T). reflexivity.
    + rewrite G, <- spread_concat. apply leaves_refused; [reflexivity|exact R].
  - destruct (nearby_run limit type part now w ws v c next Sh A Ac Sp n p l B L Lv) as (q & E & Bq & F & G). exists q. repeat (split; [assumption|]).
    destruct ws as [|x ws]; [congruence|]. rewrite G, <- spread_concat. apply spaced_spoiled; [exact (nearby_built _ _ _ _ A Sh eq_refl)|exact Tk|reflexivity|exact Sv].
  - destruct (step_new limit type part now n p w l (GUnknown mkUnknown) B ltac:(cbn [length] in L; lia)) as (q & E & Bq & F & G); [apply Lv, B|eapply unread_unknown; [exact U|apply B]|intros k X; discriminate X|].
    exists q. rewrite (step_one _ _ _ _ _ _ _ _ _ B E). cbn [step_all length String.concat]. rewrite Nat.add_1_r. repeat (split; [assumption || reflexivity|]). rewrite G. apply leaves_added.
  - destruct (assembled_split _ _ _ _ A) as (w & ws' & p0 & md & g0 & -> & I & T & P & C).
    pose proof (known_first _ _ _ _ _ I P) as K. pose proof (known_index _ _ (eq_sym (continued_index _ _ _ _ _ C)) K) as K'.
    destruct (Known limit type part now w ws' p0 md g0 g n p l I T P) as (q & E & Bq & F & G); try assumption.
    { left. exact N. }
    { exact (plain_spoiled type part now md _ _ _ _ T C Sp). }
    exists q. repeat (split; [assumption|]). rewrite G, <- spread_concat. apply leaves_spoiled; assumption.
Qed.
