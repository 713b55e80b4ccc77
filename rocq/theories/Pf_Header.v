(** C56: the words before the body of a report. *)
From Coq Require Import Lia.
From Verif Require Import Prim Lib Regex Float Values Weather Groups1 Groups2 Groups3 Groups4 Parser SpecTokens SpecReads SpecText SpecRegex SpecNumeral SpecForm SpecTrend
  SpecReach SpecBuilt SpecAssembled SpecOpenings SpecSentence.
From Verif Require Import Pf_Tokens Pf_Ok Pf_Caps Pf_Regex Pf_Total Pf_Steps Pf_Kinds Pf_View Pf_Fresh Pf_Words Pf_Built Pf_Grown Pf_OneKind Pf_TimeOnly Pf_Type Pf_Form Pf_Trend Pf_Sentence.
Local Open Scope string_scope.

Definition header_item (i : string * Group) : Prop :=
  active (snd i) = true /\ Reachable (snd i) /\ forall md, GroupParser_parse (fst i) RP_HEADER md = Ok (snd i).
Lemma header_alternative : forall p w g, In p alternatives -> (forall md, p w RP_HEADER md = Ok (Some g)) -> active g = true -> header_item (w, g).
Proof.
  intros p w g I P A. split; [exact A|]. cbn [fst snd]. split; [eapply reach_first; [exact I|exact (P md_default)]|].
  intros md. eapply first_parsed; [exact I|exact (P md)|reflexivity|]. left. intros [X _]. discriminate X.
Qed.
Lemma item_keyword : forall w k, In (w, k) [("METAR", Kw_METAR); ("SPECI", Kw_SPECI); ("TAF", Kw_TAF); ("COR", Kw_COR); ("AMD", Kw_AMD)] -> header_item (w, keyword k).
Proof.
  intros w k H. refine (header_alternative (alternative GKeyword KeywordGroup_parse) w (keyword k) ltac:(cbn; tauto) _ eq_refl). intros md.
  cbn [In] in H. repeat (destruct H as [H|H]; [injection H as <- <-; reflexivity|]). destruct H.
Qed.
Lemma item_location : forall i, location i -> header_item i.
Proof.
  intros [w g] [M E]. cbn [fst snd] in *. subst g.
  refine (header_alternative (alternative GLocation LocationGroup_parse) w (GLocation (mkLocation w)) ltac:(cbn; tauto) _ eq_refl). intros md. unfold alternative.
  assert (X : LocationGroup_parse w RP_HEADER md = Ok (Some (mkLocation w))).
  { apply location_parse_iff. split; [reflexivity|]. split; [|reflexivity]. rewrite <- location_match. apply is_match_lang. exact M. }
  rewrite X. reflexivity.
Qed.
Lemma item_issued : forall i t, issued i t -> header_item i.
Proof.
  intros [w g] t (s & W & D & E). cbn [fst snd] in *. subst g w.
  refine (header_alternative (alternative GReportTime ReportTimeGroup_parse) _ (GReportTime (mkReportTime t)) ltac:(cbn; tauto) _ eq_refl). intros md. unfold alternative.
  assert (X : ReportTimeGroup_parse (s ++ "Z") RP_HEADER md = Ok (Some (mkReportTime t))).
  { destruct (dhm_len _ _ D) as [L F]. unfold ReportTimeGroup_parse. cbn [is_part ReportPart_beq negb]. rewrite report_time_match.
    assert (Z : fits report_time_form (s ++ "Z") = true) by (apply (fits_app (repeat digit 6) [just "Z"]); [exact F|reflexivity]). rewrite Z. cbn [negb].
    unfold substr. cbn [Nat.leb]. rewrite <- L, substring0_app. cbn [bind]. rewrite (proj2 (dhm_parse s t L) D). cbn [bind].
    destruct D as (d & h & m & day & hour & minute & _ & _ & _ & _ & ->). reflexivity. }
  rewrite X. reflexivity.
Qed.
Lemma item_span : forall i, forecast_span i -> header_item i.
Proof.
  intros [w g] (a & b & f & u & W & A & B & E). cbn [fst snd] in *. subst g w.
  refine (header_alternative (alternative GTrend TrendGroup_parse) _ (GTrend (span_group f u)) ltac:(cbn; tauto) _ eq_refl). intros md. unfold alternative.
  assert (X : TrendGroup_parse (a ++ "/" ++ b) RP_HEADER md = Ok (Some (span_group f u))).
  { change (Trend_fromTimeSpan (a ++ "/" ++ b) = Ok (Some (span_group f u))). apply span_taf. exists a, b, f, u. auto. }
  rewrite X. reflexivity.
Qed.
Lemma header_step : forall limit p w g, header_item (w, g) -> getReportPart (ps_status p) = RP_HEADER -> isError (ps_status p) = false ->
  Forall (fun i => Reachable (gi_group i) /\ active (gi_group i) = true) (ps_groups p) ->
  isReparseRequired (transition (ps_status p) (getSyntaxGroup g)) = false -> (S (ps_count p) < limit)%nat ->
  exists q, step_all limit [w] p = Ok q /\ ps_status q = transition (ps_status p) (getSyntaxGroup g) /\ ps_count q = S (ps_count p)
    /\ ps_groups q = mkGroupInfo g RP_HEADER w :: ps_groups p
    /\ md_reportTime (ps_md q) = match g with GReportTime t => Some (rt_t t) | _ => md_reportTime (ps_md p) end.
Proof.
  intros limit p w g (A & R & G) P E F Q L. cbn [fst snd] in *. cbn [step_all]. rewrite E. unfold parse_step. rewrite P.
  assert (X : appendToLastResultGroup (ps_groups p) w RP_HEADER (ps_md p) = Ok (ps_groups p, false)).
  { destruct (ps_groups p) as [|[h pt raw] l]; [reflexivity|]. inv F. destruct H1 as [Rh Ah]. cbn [gi_group] in Rh, Ah. cbn [appendToLastResultGroup gi_group gi_reportPart gi_rawString].
    rewrite (active_append h w RP_HEADER (ps_md p) Rh Ah). destruct h; try discriminate Ah; reflexivity. }
  rewrite X. cbn [bind negb parse_group_loop]. rewrite P, (G (ps_md p)). cbn [bind]. unfold count_group.
  destruct (Nat.leb_spec limit (S (ps_count p))) as [Y|_]; [lia|]. rewrite Q. cbn [andb bind].
  pose proof (ok_updateMetadata g (ps_md p) R) as U. destruct (updateMetadata g (ps_md p)) as [md'|] eqn:Em; [|destruct U]. cbn [bind].
  eexists. split; [reflexivity|]. cbn [ps_status ps_groups ps_count ps_md]. repeat (split; [reflexivity|]). split; [apply add_known; destruct g; try discriminate A; reflexivity|].
  destruct (time_kept _ _ _ Em) as [T|[t ->]]; [rewrite T|injection Em as <-; reflexivity].
  destruct g; try reflexivity. cbn in Em. injection Em as <-. symmetry. exact T.
Qed.
(** The states of the header *)
Inductive Path : Status -> option MetafTime -> list (string * Group) -> Status -> option MetafTime -> Prop :=
| Path_end : forall st now, Path st now [] st now
| Path_word : forall st now i l st' now', header_item i -> getReportPart st = RP_HEADER -> isError st = false -> isReparseRequired (transition st (getSyntaxGroup (snd i))) = false ->
    Path (transition st (getSyntaxGroup (snd i))) (match snd i with GReportTime t => Some (rt_t t) | _ => now end) l st' now' -> Path st now (i :: l) st' now'.
Lemma path_run : forall limit st now l st' now', Path st now l st' now' -> forall p, ps_status p = st -> md_reportTime (ps_md p) = now ->
  Forall (fun i => Reachable (gi_group i) /\ active (gi_group i) = true) (ps_groups p) -> (ps_count p + length l < limit)%nat ->
  exists q, step_all limit (map fst l) p = Ok q /\ ps_status q = st' /\ md_reportTime (ps_md q) = now' /\ ps_count q = (ps_count p + length l)%nat
    /\ ps_groups q = (rev (header_groups l) ++ ps_groups p)%list /\ Forall (fun i => Reachable (gi_group i) /\ active (gi_group i) = true) (ps_groups q).
Proof.
  intros limit st now l st' now' H; induction H as [st now|st now [w g] l st' now' Hi P E Q H IH]; intros p Es Et F L; cbn [length map rev app] in *.
  - exists p. rewrite Nat.add_0_r. auto 10.
  - subst st now. cbn [fst snd] in *. destruct (header_step limit p w g Hi P E F Q ltac:(lia)) as (p1 & E1 & S1 & C1 & G1 & T1).
    destruct (IH p1 S1 T1) as (q & E2 & S2 & T2 & C2 & G2 & F2); [rewrite G1; constructor; [cbn [gi_group]; split; apply Hi|exact F]|rewrite C1; lia|].
    exists q. change (w :: map fst l) with ([w] ++ map fst l)%list. rewrite (step_all_app _ _ _ _ _ E1). repeat (split; [first [assumption|lia]|]). split; [|exact F2].
    rewrite G2, G1. unfold header_groups. cbn [map rev fst snd]. rewrite <- app_assoc. reflexivity.
Qed.
Definition header_status (type : ReportType) : Status :=
  mkStatus (match type with RT_TAF => St_REPORT_BODY_BEGIN_TAF | _ => St_REPORT_BODY_BEGIN_METAR end) type RE_NONE.
Ltac reach_state := match goal with |- Path ?s ?n _ _ _ => let s' := eval vm_compute in s in change s with s' end; cbn [snd].
Lemma header_path : forall type now l, Header type now l -> Path Status_init None l (header_status type) now.
Proof.
  assert (W : forall type w k, type_word type w k -> header_item (w, keyword k)).
  { intros type w k [[_ H]|[_ [-> ->]]]; apply item_keyword; [cbn [In] in H |- *; tauto|cbn; tauto]. }
  intros type now l H. destruct H as [w k c loc time t Tw Co Lo Is|w k c loc time t span Tw Co Lo Is Sp|w k c loc span Tw Co Lo Sp|loc time t span Lo Is Sp].
  all: try pose proof (W _ _ _ Tw) as Hw; try pose proof (item_location _ Lo) as Hl; try pose proof (item_issued _ _ Is) as Ht; try pose proof (item_span _ Sp) as Hs.
  all: try (destruct loc as [lw lg]; destruct Lo as [_ El]; cbn [fst snd] in El; subst lg).
  all: try (destruct time as [tw tg]; destruct Is as (ts & _ & _ & Et); cbn [snd] in Et; subst tg).
  all: try (destruct span as [sw sg]; destruct Sp as (sa & sb & sf & su & _ & _ & _ & Eu); cbn [snd] in Eu; subst sg).
  - destruct Tw as [[_ Tw]|[X _]]; [|discriminate X]. destruct Co as [->|[->|[X _]]]; [| |discriminate X]; cbn [In] in Tw; destruct Tw as [Tw|[Tw|[]]]; injection Tw as <- <-; cbn [app];
      repeat (apply Path_word; [first [assumption|apply item_keyword; cbn; tauto]|reflexivity|reflexivity|reflexivity|reach_state]); apply Path_end.
  - destruct Tw as [[X _]|[_ [-> ->]]]; [discriminate X|]. destruct Co as [->|[->|[_ ->]]]; cbn [app];
      repeat (apply Path_word; [first [assumption|apply item_keyword; cbn; tauto]|reflexivity|reflexivity|reflexivity|reach_state]); apply Path_end.
  - destruct Tw as [[X _]|[_ [-> ->]]]; [discriminate X|]. destruct Co as [->|[->|[_ ->]]]; cbn [app];
      repeat (apply Path_word; [first [assumption|apply item_keyword; cbn; tauto]|reflexivity|reflexivity|reflexivity|reach_state]); apply Path_end.
  - repeat (apply Path_word; [assumption|reflexivity|reflexivity|reflexivity|reach_state]); apply Path_end.
Qed.
