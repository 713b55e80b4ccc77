(** C59: the reports which are read without error. *)
From Coq Require Import Lia.
From Verif Require Import Prim Lib Regex Float Values Weather Groups1 Groups2 Groups3 Groups4 Parser SpecTokens SpecReads SpecText SpecRegex SpecNumeral SpecTrend SpecLimit SpecType
  SpecReach SpecBuilt SpecAssembled SpecOpenings SpecSentence SpecWhole.
From Verif Require Import Pf_Tokens Pf_Ok Pf_Caps Pf_Regex Pf_Total Pf_Steps Pf_Kinds Pf_View Pf_Fresh Pf_Words Pf_Built Pf_Grown Pf_OneKind Pf_TimeOnly Pf_Sentence Pf_Header Pf_Reading
  Pf_Assembled Pf_EndAppend Pf_Division.
Local Open Scope string_scope.

(** ** Reports which end without error *)
Definition completes (limit : nat) (ws : list string) (p : ParserState) : Prop :=
  exists q, step_all limit ws p = Ok q /\ st_error (finalTransition (ps_status q)) = RE_NONE.
Lemma completes_app : forall limit a b p q, step_all limit a p = Ok q -> completes limit (a ++ b) p -> completes limit b q.
Proof. intros limit a b p q E (r & H & C). exists r. rewrite (step_all_app _ _ _ _ _ E) in H. auto. Qed.
Lemma final_error : forall st, st_error (finalTransition st) = RE_NONE -> st_error st = RE_NONE.
Proof. intros [s t e]. destruct s; cbn; congruence. Qed.
Lemma completes_clean : forall limit ws p, completes limit ws p -> isError (ps_status p) = false.
Proof.
  intros limit ws p (q & H & C). destruct (isError (ps_status p)) eqn:E; [|reflexivity]. rewrite (step_all_error _ _ _ E) in H. injection H as <-. apply final_error in C. unfold isError in E. rewrite C in E. discriminate E.
Qed.
Definition refusing (p : ParserState) : Prop := forall part w md, appendToLastResultGroup (ps_groups p) w part md = Ok (ps_groups p, false).
(** A word after groups which it does not continue *)
Lemma fresh_word : forall limit w ws p, refusing p -> completes limit (w :: ws) p -> (S (ps_count p) < limit)%nat ->
  exists g, GroupParser_parse w (getReportPart (ps_status p)) (ps_md p) = Ok g /\ st_error (transition (ps_status p) (getSyntaxGroup g)) = RE_NONE.
Proof.
  intros limit w ws p Rf H L. pose proof (completes_clean _ _ _ H) as E. pose proof (ok_GroupParser_parse w (getReportPart (ps_status p)) (ps_md p)) as O.
  destruct (GroupParser_parse w (getReportPart (ps_status p)) (ps_md p)) as [g|] eqn:G; [|destruct O]. exists g. split; [reflexivity|].
  destruct H as (q & H & C). cbn [step_all] in H. rewrite E in H. unfold parse_step in H. rewrite Rf in H. cbn [bind negb parse_group_loop] in H. rewrite G in H. cbn [bind] in H.
  unfold count_group in H. destruct (Nat.leb_spec limit (S (ps_count p))) as [X|_]; [lia|]. set (st := transition (ps_status p) (getSyntaxGroup g)) in *.
  destruct (isError st) eqn:Es.
  - cbn [negb] in H. rewrite andb_false_r in H. cbn [bind] in H. destruct (updateMetadata g (ps_md p)) as [md|]; [|discriminate H]. cbn [bind] in H.
    rewrite step_all_error in H by exact Es. injection H as <-. apply final_error in C. exact C.
  - unfold isError in Es. destruct (st_error st); try discriminate Es; reflexivity.
Qed.
(** A keyword in the body or in the remarks *)
Lemma keyword_step : forall limit type part now n p w k l, at_point limit type part now n p -> (S n < limit)%nat -> leaves part now (ps_groups p) w l ->
  KeywordGroup_parse w part md_default = Ok (Some k) ->
  exists q, step_all limit [w] p = Ok q /\ ps_status q = transition (ps_status p) (getSyntaxGroup (GKeyword k)) /\ ps_groups q = mkGroupInfo (GKeyword k) part w :: l
    /\ md_reportTime (ps_md q) = now /\ ps_count q = S n.
Proof.
  intros limit type part now n p w k l [B T C] L Lv K.
  assert (G : forall md, GroupParser_parse w part md = Ok (GKeyword k)).
  { intros md. eapply (first_parsed (alternative GKeyword KeywordGroup_parse) w part md md); [cbn; tauto|unfold alternative; rewrite keyword_time, K; reflexivity|reflexivity|].
    left. intros [-> I]. cbn [shared_words In] in I. repeat (destruct I as [<-|I]; [discriminate K|]). destruct I. }
  cbn [step_all]. rewrite (body_no_error _ _ _ B). unfold parse_step. rewrite (body_part_of _ _ _ B), (Lv _ T). cbn [bind negb parse_group_loop]. rewrite (body_part_of _ _ _ B), G. cbn [bind].
  unfold count_group. rewrite C. destruct (Nat.leb_spec limit (S n)) as [X|_]; [lia|].
  assert (Q : isReparseRequired (transition (ps_status p) (getSyntaxGroup (GKeyword k))) = false) by (clear - B; by_state B; destruct k as [[]]; reflexivity).
  rewrite Q. cbn [andb bind].
  assert (Rg : Reachable (GKeyword k)). { eapply reach_parsed. exact (K : parsed_as (GKeyword k) w part md_default). }
  pose proof (ok_updateMetadata (GKeyword k) (ps_md p) Rg) as U. destruct (updateMetadata (GKeyword k) (ps_md p)) as [md'|] eqn:E; [|destruct U]. cbn [bind].
  eexists. split; [reflexivity|]. cbn [ps_status ps_groups ps_md ps_count]. split; [reflexivity|]. split; [apply add_known; reflexivity|]. split; [|reflexivity].
  destruct (time_kept _ _ _ E) as [->|[t X]]; [exact T|discriminate X].
Qed.
(** Nothing comes after NIL and CNL. *)
Definition closed_status (st : Status) : Prop := st_error st = RE_NONE /\ In (st_state st) [St_NIL; St_CNL].
Lemma closed_ends : forall limit ws p, closed_status (ps_status p) -> refusing p -> (S (ps_count p) < limit)%nat -> completes limit ws p -> ws = [].
Proof.
  intros limit ws p [E S] Rf L H. destruct ws as [|w ws]; [reflexivity|exfalso]. destruct (fresh_word limit w ws p Rf H L) as (g & G & X).
  destruct (ps_status p) as [s t e]. cbn [st_state] in S. destruct S as [<-|[<-|[]]]; discriminate X.
Qed.
Lemma stop_words : forall type part w, stops type part w -> exists k, KeywordGroup_parse w part md_default = Ok (Some k)
  /\ (In (kw_t k, w) [(Kw_NIL, "NIL"); (Kw_CNL, "CNL"); (Kw_RMK, "RMK")] /\ part <> RP_RMK \/ kw_t k = Kw_MAINTENANCE_INDICATOR /\ type <> RT_METAR).
Proof.
  intros type part w (k & K & N). exists k. split; [exact K|]. pose proof K as K'. unfold KeywordGroup_parse in K'. cbv zeta in K'.
  repeat match type of K' with (if ?b then _ else _) = _ => destruct b eqn:?; [injection K' as <-|] end; try discriminate K'; cbn [kw_t] in *.
  all: try (exfalso; apply N; intros k E; injection E as <-; cbn [kw_t In]; split; [intuition discriminate|discriminate]).
  4: { right. split; [reflexivity|]. intros ->. apply N. intros k E. injection E as <-. cbn [kw_t In]. split; [intuition discriminate|reflexivity]. }
  all: left; repeat match goal with H : (_ && _)%bool = true |- _ => apply andb_true_iff in H; destruct H end.
  all: match goal with H : seqb ?x _ = true |- _ => apply seqb_eq in H; subst x end; (split; [cbn; tauto|]; intros ->; discriminate).
Qed.
Lemma completes_end : forall limit p, completes limit [] p -> st_error (finalTransition (ps_status p)) = RE_NONE.
Proof. intros limit p (q & H & C). cbn [step_all] in H. injection H as <-. exact C. Qed.
Lemma keyword_refusing : forall p k part w l, ps_groups p = mkGroupInfo (GKeyword k) part w :: l -> refusing p.
Proof. intros p k part w l E pt x md. rewrite E. reflexivity. Qed.

Theorem after_header : forall limit type now n p1 ws, type <> RT_UNKNOWN -> at_point limit type (body_part type) now n p1 -> ps_status p1 = header_status type -> refusing p1 ->
  Forall token ws -> (S (n + length ws) < limit)%nat -> completes limit ws p1 ->
  (exists body remarks, ws = (text_of body ++ remark_words remarks)%list /\ well_formed type now body remarks) \/ ws = ["NIL"] \/ type = RT_TAF /\ ws = ["CNL"].
Proof.
  intros limit type now n p1 ws Nt B1 S1 Rf Tk L H.
  assert (L1 : forall w, leaves (body_part type) now (ps_groups p1) w (ps_groups p1)) by (intros w md _; apply Rf).
  destruct (divide type (body_part type) now ws) as (body & [(W & ->)|(w & rest & -> & W & X)]).
  - left. exists body, None. cbn [remark_words]. rewrite app_nil_r. split; [reflexivity|]. split; [exact W|]. intros ->. apply completes_end in H. rewrite S1 in H. destruct type; discriminate H.
  - apply Forall_app in Tk. destruct Tk as [Tb Tr]. rewrite app_length in L. cbn [length] in L. pose proof (Forall_inv_tail Tr) as Tt.
    destruct (sentence_run limit type (body_part type) now w body W Tb n p1 (ps_groups p1) B1 ltac:(lia) (L1 _)) as (p2 & E2 & B2 & F2 & L2).
    pose proof (completes_app _ _ _ _ _ E2 H) as H2.
    destruct (stop_words _ _ _ X) as (k & K & D).
    destruct (keyword_step limit type (body_part type) now _ p2 w k _ B2 ltac:(lia) L2 K) as (p3 & E3 & S3 & G3 & T3 & C3).
    pose proof (completes_app limit [w] rest p2 p3 E3 H2) as H3. pose proof (completes_clean _ _ _ H3) as C. pose proof (keyword_refusing _ _ _ _ _ G3) as Rf3.
    assert (St : ps_status p2 = header_status type /\ body = [] \/ ps_status p2 = mkStatus (match type with RT_TAF => St_REPORT_BODY_TAF | _ => St_REPORT_BODY_METAR end) type RE_NONE).
    { destruct body as [|i body]; [left; split; [|reflexivity]; cbn [text_of map List.concat step_all] in E2; injection E2 as <-; exact S1|right].
      assert (Nb : i :: body <> []) by discriminate. pose proof (F2 (or_intror Nb)) as F. destruct B2 as [B2 _ _]. unfold begun in F. clear - B2 F Nt.
      revert F. apply in_body_cases in B2. cbn [In] in B2. repeat (destruct B2 as [B2|B2]; [injection B2 as <- Hp <-; intros F; first [discriminate F|discriminate Hp|reflexivity]|]). destruct B2. }
    destruct D as [[D _]|[D Nm]].
    + destruct k as [k]. cbn [kw_t In] in D. destruct D as [D|[D|[D|[]]]]; injection D as <- <-.
      * right. left. destruct St as [[St ->]|St]; rewrite S3, St in C; [|destruct type; discriminate C].
        assert (Z : closed_status (ps_status p3)) by (rewrite S3, St; destruct type; [congruence|split; [reflexivity|left; reflexivity]..]).
        rewrite (closed_ends limit rest p3 Z Rf3 ltac:(lia) H3). reflexivity.
      * right. right. destruct St as [[St ->]|St]; rewrite S3, St in C; [|destruct type; discriminate C]. destruct type; [congruence|discriminate C|]. split; [reflexivity|].
        assert (Z : closed_status (ps_status p3)) by (rewrite S3, St; split; [reflexivity|right; left; reflexivity]).
        rewrite (closed_ends limit rest p3 Z Rf3 ltac:(lia) H3). reflexivity.
      * left. assert (B3 : at_point limit type RP_RMK now (S (n + length (text_of body))) p3).
        { split; [|exact T3|exact C3]. rewrite S3. destruct St as [[St ->]|St]; rewrite St; destruct type; try congruence; (split; [reflexivity|split; reflexivity]). }
        destruct (divide type RP_RMK now rest) as (items & [(Wr & ->)|(x & rest' & -> & Wr & Xr)]).
        -- exists body, (Some items). split; [reflexivity|]. split; assumption.
        -- exfalso. apply Forall_app in Tt. destruct Tt as [Ti _]. rewrite app_length in L. cbn [length] in L.
           destruct (sentence_run limit type RP_RMK now x items Wr Ti _ p3 (ps_groups p3) B3 ltac:(lia)) as (p4 & E4 & B4 & F4 & L4); [intros md _; apply Rf3|].
           pose proof (completes_app _ _ _ _ _ E4 H3) as H4. destruct (stop_words _ _ _ Xr) as (k & Kr & [[_ N]|[D N]]); [congruence|].
           destruct (keyword_step limit type RP_RMK now _ p4 x k _ B4 ltac:(lia) L4 Kr) as (p5 & E5 & S5 & _).
           pose proof (completes_clean _ _ _ (completes_app limit [x] rest' p4 p5 E5 H4)) as C5. rewrite S5 in C5. destruct B4 as [B4 _ _]. destruct k as [k]. cbn [kw_t] in D. subst k. clear - B4 C5 N.
           revert C5 N. apply in_body_cases in B4. cbn [In] in B4. repeat (destruct B4 as [B4|B4]; [first [discriminate B4|injection B4 as <- <-; intros C5 N; first [discriminate C5|congruence]]|]). destruct B4.
    + exfalso. rewrite S3 in C. destruct k as [k]. cbn [kw_t] in D. subst k. destruct St as [[St _]|St]; rewrite St in C; clear - C Nm Nt; destruct type; first [exact (Nt eq_refl)|exact (Nm eq_refl)|discriminate C].
Qed.
