(** C59: the headers of reports which are read without error. *)
From Coq Require Import Lia.
From Verif Require Import Prim Lib Regex Float Values Weather Groups1 Groups2 Groups3 Groups4 Parser SpecTokens SpecReads SpecText SpecRegex SpecNumeral SpecTrend SpecForm
  SpecReach SpecBuilt SpecAssembled SpecOpenings SpecSentence SpecWhole.
From Verif Require Import Pf_Tokens Pf_Ok Pf_Caps Pf_Regex Pf_Form Pf_Total Pf_Steps Pf_Kinds Pf_View Pf_Fresh Pf_Words Pf_Built Pf_Grown Pf_Type Pf_Trend Pf_OneKind Pf_TimeOnly Pf_Sentence Pf_Header Pf_Reading
  Pf_Assembled Pf_EndAppend Pf_Division Pf_EveryReport.
Local Open Scope string_scope.

(** What the words of the header are *)
Definition classified (w : string) (g : Group) : Prop :=
  match getSyntaxGroup g with
  | SG_METAR => w = "METAR" /\ g = keyword Kw_METAR
  | SG_SPECI => w = "SPECI" /\ g = keyword Kw_SPECI
  | SG_TAF => w = "TAF" /\ g = keyword Kw_TAF
  | SG_COR => w = "COR" /\ g = keyword Kw_COR
  | SG_AMD => w = "AMD" /\ g = keyword Kw_AMD
  | SG_NIL => w = "NIL" /\ g = keyword Kw_NIL
  | SG_LOCATION => location (w, g)
  | SG_REPORT_TIME => exists t, issued (w, g) t
  | SG_TIME_SPAN => forecast_span (w, g)
  | _ => True
  end.
Lemma classify : forall w md g, GroupParser_parse w RP_HEADER md = Ok g -> classified w g.
Proof.
  intros w md g G. destruct (GroupParser_parse_inv _ _ _ _ G) as [[->|P] _]; [exact I|]. unfold classified. destruct g; try exact I; cbn [parsed_as] in P.
  - unfold KeywordGroup_parse in P. cbn [is_part ReportPart_beq orb andb] in P. cbv zeta in P.
    repeat match type of P with (if ?b then _ else _) = _ => destruct b eqn:?; [injection P as <-; try exact I|] end; try discriminate P; cbn [getSyntaxGroup kw_t].
    all: match goal with H : seqb ?x _ = true |- _ => apply seqb_eq in H; subst x end; split; reflexivity.
  - cbn [getSyntaxGroup]. apply location_parse_iff in P. destruct P as (_ & F & E). split; cbn [fst snd].
    + rewrite <- location_match in F. apply is_match_lang in F. exact F.
    + destruct g as [s]. cbn in E. subst s. reflexivity.
  - cbn [getSyntaxGroup]. unfold ReportTimeGroup_parse in P. cbn [is_part ReportPart_beq negb] in P. rewrite report_time_match in P. destruct (fits report_time_form w) eqn:F; [|discriminate P]. cbn [negb] in P.
    destruct (fits_split (repeat digit 6) [just "Z"] w F) as (a & b & -> & Fa & Fb). pose proof (fits_length _ _ Fa) as La. cbn [repeat List.length] in La.
    assert (b = "Z"). { destruct b as [|c [|c' b]]; try discriminate Fb; cbn [fits] in Fb; [|rewrite andb_false_r in Fb; discriminate Fb]. rewrite andb_true_r in Fb. unfold just in Fb. apply Ascii.eqb_eq in Fb. subst c. reflexivity. } subst b.
    unfold substr in P. cbn [Nat.leb] in P. rewrite <- La, substring0_app in P. cbn [bind] in P. destruct (MetafTime_fromStringDDHHMM a) as [[t|]|] eqn:E; try discriminate P. cbn [bind] in P.
    destruct (has_value (dayValue t)); [|discriminate P]. cbn [negb] in P. injection P as <-. exists t, a. split; [reflexivity|]. split; [apply dhm_parse; assumption|reflexivity].
  - cbn [getSyntaxGroup]. destruct (Trend_isTimeSpanGroup g); [|exact I]. change (Trend_fromTimeSpan w = Ok (Some g)) in P. apply span_taf in P. destruct P as (a & b & f & u & -> & A & B & ->).
    exists a, b, f, u. auto.
Qed.
Lemma item_nil : header_item ("NIL", keyword Kw_NIL).
Proof. refine (header_alternative (alternative GKeyword KeywordGroup_parse) "NIL" (keyword Kw_NIL) ltac:(cbn; tauto) (fun md => eq_refl) eq_refl). Qed.

Lemma path_snoc : forall st now l st' now' i, Path st now l st' now' -> header_item i -> getReportPart st' = RP_HEADER -> isError st' = false -> isReparseRequired (transition st' (getSyntaxGroup (snd i))) = false ->
  Path st now (l ++ [i]) (transition st' (getSyntaxGroup (snd i))) (match snd i with GReportTime t => Some (rt_t t) | _ => now' end).
Proof.
  intros st now l st' now' i H; induction H as [st now|st now j l st' now' Hj P E Q H IH]; intros Hi P' E' Q'; cbn [app].
  - apply Path_word; try assumption. apply Path_end.
  - apply Path_word; try assumption. apply IH; assumption.
Qed.
Lemma walk : forall limit l st now ws, Path Status_init None l st now -> Forall token (map fst l ++ ws) -> (S (length l + length ws) < limit)%nat -> completes limit (map fst l ++ ws) ps_init ->
  exists p, step_all limit (map fst l) ps_init = Ok p /\ ps_status p = st /\ md_reportTime (ps_md p) = now /\ ps_count p = length l /\ refusing p /\ rev (ps_groups p) = header_groups l
    /\ completes limit ws p /\ known_last (ps_groups p) /\ (l <> [] -> texted (ps_groups p)).
Proof.
  intros limit l st now ws P Tk L H. apply Forall_app in Tk. destruct Tk as [Th _].
  destruct l as [|i l].
  - inversion P; subst. exists ps_init. repeat (split; [reflexivity|]). split; [intros part w md; reflexivity|]. split; [reflexivity|]. split; [exact H|]. split; [exact Logic.I|congruence].
  - destruct (header_run limit (i :: l) st now P ltac:(discriminate) Th ltac:(cbn [length] in *; lia)) as (p & E & S & T & C & G & K & X & R).
    exists p. do 4 (split; [assumption|]). split; [exact R|]. split; [exact G|]. split; [exact (completes_app _ _ _ _ _ E H)|]. auto.
Qed.
Lemma walk_word : forall limit l st now ws, Path Status_init None l st now -> Forall token (map fst l ++ ws) -> (S (length l + length ws) < limit)%nat -> completes limit (map fst l ++ ws) ps_init ->
  getReportPart st = RP_HEADER -> st_error (finalTransition st) <> RE_NONE ->
  exists w ws' g, ws = w :: ws' /\ classified w g /\ st_error (transition st (getSyntaxGroup g)) = RE_NONE /\ (exists md, GroupParser_parse w RP_HEADER md = Ok g)
    /\ (isReparseRequired (transition st (getSyntaxGroup g)) = false -> header_item (w, g) ->
        Path Status_init None (l ++ [(w, g)]) (transition st (getSyntaxGroup g)) (match g with GReportTime t => Some (rt_t t) | _ => now end)).
Proof.
  intros limit l st now ws P Tk L H Hp F. destruct (walk limit l st now ws P Tk L H) as (p & E & S & T & C & R & _ & H' & _).
  destruct ws as [|w ws]; [exfalso; apply F; rewrite <- S; exact (completes_end _ _ H')|].
  destruct (fresh_word limit w ws p R H' ltac:(cbn [length] in L; lia)) as (g & G & X). rewrite S in G, X. rewrite Hp in G.
  exists w, ws, g. split; [reflexivity|]. split; [exact (classify _ _ _ G)|]. split; [exact X|]. split; [eauto|]. intros Q Hi.
  refine (path_snoc _ _ _ _ _ (w, g) P Hi Hp _ Q). rewrite <- S. exact (completes_clean _ _ _ H').
Qed.
Definition at_time_state (type : ReportType) : Status := mkStatus St_REPORT_TIME type RE_NONE.
Definition opened_as (W : list string) : Prop :=
  exists type o loc ws, Opening type o /\ location loc /\ W = (map fst (o ++ [loc]) ++ ws)%list /\ Path Status_init None (o ++ [loc]) (at_time_state type) None.
Ltac regroup := rewrite map_app, <- app_assoc; cbn [map fst app].
Lemma opened_here : forall W type l ws st w g, W = (map fst l ++ w :: ws)%list -> Opening type l -> location (w, g) -> transition st SG_LOCATION = at_time_state type ->
  (isReparseRequired (transition st (getSyntaxGroup g)) = false -> header_item (w, g) ->
        Path Status_init None (l ++ [(w, g)]) (transition st (getSyntaxGroup g)) (match g with GReportTime t => Some (rt_t t) | _ => None end)) -> opened_as W.
Proof.
  intros W type l ws st w g -> O Lo T N. exists type, l, (w, g), ws. split; [exact O|]. split; [exact Lo|]. split; [regroup; reflexivity|].
  pose proof (item_location _ Lo) as Hi. destruct Lo as [_ E]. cbn [fst snd] in E. subst g. cbn [getSyntaxGroup] in N. rewrite T in N. exact (N eq_refl Hi).
Qed.
Lemma opened_corrected : forall limit W type l ws, Forall token W -> (S (length W) < limit)%nat -> completes limit W ps_init -> W = (map fst l ++ ws)%list -> Opening type l ->
  Path Status_init None l (mkStatus St_LOCATION type RE_NONE) None -> opened_as W.
Proof.
  intros limit W type l ws Tk L H E O P. pose proof E as E'. rewrite E in Tk, L, H. rewrite app_length, map_length in L.
  destruct (walk_word _ _ _ _ _ P Tk L H eq_refl ltac:(cbn; discriminate)) as (w & ws' & g & -> & Cl & X & _ & N). unfold classified in Cl.
  destruct (getSyntaxGroup g) eqn:Sg; try discriminate X. rewrite <- Sg in N. exact (opened_here W type l ws' (mkStatus St_LOCATION type RE_NONE) w g E' O Cl eq_refl N).
Qed.
Lemma opened_typed : forall limit W type w k ws, Forall token W -> (S (length W) < limit)%nat -> completes limit W ps_init -> W = w :: ws -> type_word type w k ->
  Path Status_init None [(w, keyword k)] (mkStatus St_CORRECTION type RE_NONE) None -> opened_as W.
Proof.
  intros limit W type w k ws Tk L H E Tw P. pose proof E as E'. change (w :: ws) with (map fst [(w, keyword k)] ++ ws)%list in E.
  rewrite E in Tk, L, H. rewrite app_length, map_length in L.
  destruct (walk_word _ _ _ _ _ P Tk L H eq_refl ltac:(cbn; discriminate)) as (w1 & ws1 & g1 & -> & Cl & X & _ & N). rewrite <- E in Tk, H. rewrite <- map_length with (f := fst), <- app_length, <- E in L. unfold classified in Cl.
  assert (More : forall k1, g1 = keyword k1 -> correction type [(w1, g1)] -> header_item (w1, g1) -> transition (mkStatus St_CORRECTION type RE_NONE) (getSyntaxGroup g1) = mkStatus St_LOCATION type RE_NONE -> opened_as W).
  { intros k1 -> Co Hi T. rewrite T in N. apply (opened_corrected limit W type ([(w, keyword k)] ++ [(w1, keyword k1)])%list ws1 Tk L H); [rewrite E; reflexivity|exact (Opening_type type w k _ Tw Co)|exact (N eq_refl Hi)]. }
  destruct (getSyntaxGroup g1) eqn:Sg; try discriminate X.
  - destruct Cl as [-> ->]. apply (More Kw_COR eq_refl); [right; left; reflexivity|apply item_keyword; cbn; tauto|reflexivity].
  - destruct Cl as [-> ->]. destruct type; try discriminate X. apply (More Kw_AMD eq_refl); [right; right; auto|apply item_keyword; cbn; tauto|reflexivity].
  - rewrite <- Sg in N. exact (opened_here W type [(w, keyword k)] ws1 (mkStatus St_CORRECTION type RE_NONE) w1 g1 E (Opening_type type w k [] Tw (or_introl eq_refl)) Cl eq_refl N).
Qed.
Lemma opened : forall limit W, Forall token W -> (S (length W) < limit)%nat -> completes limit W ps_init -> opened_as W.
Proof.
  intros limit W Tk L H.
  destruct (walk_word _ _ _ _ _ (Path_end Status_init None) Tk L H eq_refl ltac:(cbn; discriminate)) as (w & ws & g & E & Cl & X & _ & N). cbn [app] in N. unfold classified in Cl.
  destruct (getSyntaxGroup g) eqn:Sg; try discriminate X.
  - destruct Cl as [-> ->]. exact (opened_typed limit W RT_METAR "METAR" Kw_METAR ws Tk L H E (or_introl (conj eq_refl (or_introl eq_refl))) (N eq_refl (item_keyword "METAR" Kw_METAR ltac:(cbn; tauto)))).
  - destruct Cl as [-> ->]. exact (opened_typed limit W RT_METAR "SPECI" Kw_SPECI ws Tk L H E (or_introl (conj eq_refl (or_intror (or_introl eq_refl)))) (N eq_refl (item_keyword "SPECI" Kw_SPECI ltac:(cbn; tauto)))).
  - destruct Cl as [-> ->]. exact (opened_typed limit W RT_TAF "TAF" Kw_TAF ws Tk L H E (or_intror (conj eq_refl (conj eq_refl eq_refl))) (N eq_refl (item_keyword "TAF" Kw_TAF ltac:(cbn; tauto)))).
  - rewrite <- Sg in N. exact (opened_here W RT_UNKNOWN [] ws Status_init w g E Opening_none Cl eq_refl N).
Qed.
(** ** The rest of the report *)
Definition reported (W : list string) : Prop := exists type now groups n, Report W type now groups n.
Lemma header_known : forall type now header, Header type now header -> type <> RT_UNKNOWN.
Proof. intros type now header H. destruct H; discriminate. Qed.
Lemma typed_rest : forall limit W type now header ws, Forall token W -> (S (S (length W)) < limit)%nat -> completes limit W ps_init -> W = (map fst header ++ ws)%list -> Header type now header -> reported W.
Proof.
  intros limit W type now header ws Tk L H E Hd. pose proof (header_path _ _ _ Hd) as P. pose proof (header_known _ _ _ Hd) as Nt. rewrite E in Tk, L, H. rewrite app_length, map_length in L.
  destruct (walk limit header _ now ws P Tk ltac:(lia) H) as (p & Ep & S & T & C & R & _ & H' & _). apply Forall_app in Tk. destruct Tk as [_ Tw].
  assert (B : at_point limit type (body_part type) now (length header) p).
  { split; [|exact T|exact C]. rewrite S. destruct type; [congruence|split; [reflexivity|split; [reflexivity|left; reflexivity]]..]. }
  destruct (after_header limit type now _ p ws Nt B S R Tw ltac:(lia) H') as [(body & remarks & -> & Wf)|[->|[-> ->]]].
  - exists type, now. do 2 eexists. rewrite E. apply Report_typed; assumption.
  - exists type, now. do 2 eexists. rewrite E. apply (Report_nothing type now header Kw_NIL "NIL" (body_part type)). apply Nil_header. exact Hd.
  - exists RT_TAF, now. do 2 eexists. rewrite E. apply (Report_nothing RT_TAF now header Kw_CNL "CNL" RP_TAF). apply Cnl_header. exact Hd.
Qed.
Lemma nil_rest : forall limit W type now l ws, Forall token W -> (S (S (length W)) < limit)%nat -> completes limit W ps_init -> W = (map fst (l ++ [("NIL", keyword Kw_NIL)]) ++ ws)%list ->
  Path Status_init None (l ++ [("NIL", keyword Kw_NIL)]) (mkStatus St_NIL type RE_NONE) now -> W = (map fst l ++ ["NIL"])%list.
Proof.
  intros limit W type now l ws Tk L H E P. rewrite E in Tk, L, H. rewrite app_length, map_length in L.
  destruct (walk limit _ _ now ws P Tk ltac:(lia) H) as (p & Ep & S & T & C & R & _ & H' & _).
  assert (Z : closed_status (ps_status p)) by (rewrite S; split; [reflexivity|left; reflexivity]).
  rewrite (closed_ends limit ws p Z R ltac:(lia) H'), app_nil_r, map_app in E. exact E.
Qed.
(** The first word after the time of a report without type *)
Lemma untyped_rest : forall limit W loc time t w ws g, Forall token W -> (S (S (length W)) < limit)%nat -> completes limit W ps_init -> location loc -> issued time t ->
  W = ([fst loc; fst time] ++ w :: ws)%list -> Path Status_init None [loc; time] (mkStatus St_TIME_SPAN RT_UNKNOWN RE_NONE) (Some t) ->
  (exists md, GroupParser_parse w RP_HEADER md = Ok g) -> getSyntaxGroup g <> SG_NIL -> getSyntaxGroup g <> SG_TIME_SPAN -> reported W.
Proof.
  intros limit W loc time t w ws g Tk L H Lo Is E P (md & G) N1 N2. change [fst loc; fst time] with (map fst [loc; time]) in E. rewrite E in Tk, L, H. rewrite app_length, map_length in L.
  assert (Nn : w <> "NIL").
  { intros ->. apply N1. pose proof (proj2 (proj2 item_nil) md) as Z. cbn [fst snd] in Z. rewrite Z in G. injection G as <-. reflexivity. }
  assert (Nm : ~ matches "(\d\d\d\d)/(\d\d\d\d)" w).
  { intros M. apply N2. assert (F : fits time_span_form w = true) by (rewrite <- time_span_match; apply is_match_lang; exact M).
    destruct (header_time_span w md) as [[X _]|(_ & d & h & d' & h' & Y & _)]; [congruence|].
    assert (Q : GroupParser_parse w RP_HEADER md = Ok (GTrend (mkTrend Tr_TIME_SPAN Pr_NONE true (Some (mkTime (Some d) h 0)) (Some (mkTime (Some d') h' 0)) None))).
    { eapply (first_parsed (alternative GTrend TrendGroup_parse) w RP_HEADER md md); [cbn; tauto|unfold alternative; rewrite Y; reflexivity|reflexivity|]. left. intros [X _]. discriminate X. }
    rewrite Q in G. injection G as <-. reflexivity. }
  destruct (walk limit _ _ _ _ P Tk ltac:(lia) H) as (p & Ep & S & T & C & R & _ & H' & _). apply Forall_app in Tk. destruct Tk as [_ Tw]. cbn [length] in C, L.
  set (p2 := mkParserState (header_status RT_METAR) (ps_md p) (ps_groups p) (Datatypes.S (ps_count p))).
  assert (B2 : at_point limit RT_METAR RP_METAR (Some t) 3 p2).
  { split; [split; [reflexivity|split; [reflexivity|left; reflexivity]]|exact T|]. cbn [p2 ps_count]. rewrite C. reflexivity. }
  assert (H2 : completes limit (w :: ws) p2).
  { destruct H' as (q & X & Y). exists q. split; [|exact Y]. rewrite <- X. cbn [step_all]. rewrite S. change (ps_status p2) with (header_status RT_METAR).
    change (isError (mkStatus St_TIME_SPAN RT_UNKNOWN RE_NONE)) with false. change (isError (header_status RT_METAR)) with false.
    rewrite (untyped_step limit p p2 w S eq_refl (fun part md => R part w md) Nn Nm); [reflexivity|]. rewrite C. lia. }
  destruct (after_header limit RT_METAR (Some t) 3 p2 (w :: ws) ltac:(discriminate) B2 eq_refl R Tw ltac:(cbn [length]; lia) H2) as [(body & remarks & Ew & Wf)|[Ew|[X _]]]; [|injection Ew as ->; congruence|discriminate X].
  exists RT_METAR, (Some t). do 2 eexists. rewrite E, Ew. apply (Report_untyped loc time t body remarks Lo Is Wf).
  intros x Hx. destruct (text_of body) as [|y l] eqn:Eb; [discriminate Hx|]. injection Hx as ->. injection Ew as -> _. auto.
Qed.
Theorem every_report : forall limit W, Forall token W -> (S (S (length W)) < limit)%nat -> completes limit W ps_init -> reported W.
Proof.
  intros limit W Tk L H. destruct (opened limit W Tk ltac:(lia) H) as (type & o & loc & ws & O & Lo & E & P).
  pose proof E as E0. pose proof Tk as Tk0. pose proof L as L0. pose proof H as H0. rewrite E in Tk0, L0, H0. rewrite app_length, map_length in L0.
  destruct (walk_word limit _ _ _ _ P Tk0 ltac:(lia) H0 eq_refl ltac:(cbn; discriminate)) as (w & ws' & g & -> & Cl & X & _ & N). clear Tk0 L0 H0. unfold classified in Cl.
  assert (Nil : w = "NIL" /\ g = keyword Kw_NIL -> reported W).
  { intros [-> ->]. exists type, None. do 2 eexists. rewrite (nil_rest limit W type None (o ++ [loc]) ws' Tk L H); [|rewrite E; rewrite !map_app, <- !app_assoc; reflexivity|exact (N eq_refl item_nil)].
    apply (Report_nothing type None (o ++ [loc]) Kw_NIL "NIL" RP_HEADER). apply Nil_location; assumption. }
  destruct (getSyntaxGroup g) eqn:Sg; try discriminate X.
  - destruct Cl as (t & Is). pose proof (item_issued _ _ Is) as Hi.
    assert (Eg : g = GReportTime (mkReportTime t)) by (destruct Is as (s & _ & _ & Z); exact Z).
    destruct (ReportType_eq_dec type RT_METAR) as [->|Nt].
    + inversion O as [ty wd k items Tw Co|]; subst. apply (typed_rest limit _ RT_METAR (Some t) ((wd, keyword k) :: items ++ [loc; (w, GReportTime (mkReportTime t))]) ws' Tk L H);
        [|exact (Header_metar wd k items loc (w, GReportTime (mkReportTime t)) t Tw Co Lo Is)]. cbn [map fst app]. rewrite !map_app, <- !app_assoc. reflexivity.
    + assert (P2 : Path Status_init None ((o ++ [loc]) ++ [(w, g)]) (mkStatus St_TIME_SPAN type RE_NONE) (Some t)).
      { assert (Z : transition (at_time_state type) SG_REPORT_TIME = mkStatus St_TIME_SPAN type RE_NONE) by (destruct type; [reflexivity|congruence|reflexivity]). rewrite Z in N. rewrite Eg in N |- *. subst g. exact (N eq_refl Hi). }
      assert (E2 : W = (map fst ((o ++ [loc]) ++ [(w, g)]) ++ ws')%list) by (rewrite E; rewrite (map_app fst (o ++ [loc])%list), <- app_assoc; reflexivity).
      pose proof Tk as Tk0. pose proof L as L0. pose proof H as H0. rewrite E2 in Tk0, L0, H0. rewrite app_length, map_length in L0. clear N Nil X.
      destruct (walk_word limit _ _ _ _ P2 Tk0 ltac:(lia) H0 eq_refl ltac:(cbn; discriminate)) as (w1 & ws1 & g1 & -> & Cl1 & X1 & G1 & N1). clear Tk0 L0 H0. unfold classified in Cl1.
      assert (Nil : w1 = "NIL" /\ g1 = keyword Kw_NIL -> reported W).
      { intros [-> ->]. exists type, (Some t). do 2 eexists. rewrite (nil_rest limit W type (Some t) ((o ++ [loc]) ++ [(w, g)]) ws1 Tk L H); [|rewrite E2; rewrite !map_app, <- !app_assoc; reflexivity|exact (N1 eq_refl item_nil)].
        rewrite <- app_assoc. apply (Report_nothing type (Some t) (o ++ [loc; (w, g)]) Kw_NIL "NIL" RP_HEADER). apply Nil_time; assumption. }
      assert (Span : forecast_span (w1, g1) -> reported W).
      { intros Sp. inversion O as [ty wd k items Tw Co Ety Eo|Ety Eo]; subst o.
        - subst ty. assert (type = RT_TAF) by (destruct Tw as [[Z _]|[Z _]]; [congruence|exact Z]). subst type.
          apply (typed_rest limit W RT_TAF (Some t) ((wd, keyword k) :: items ++ [loc; (w, g); (w1, g1)]) ws1 Tk L H); [|exact (Header_taf wd k items loc (w, g) t (w1, g1) Tw Co Lo Is Sp)].
          rewrite E2. cbn [map fst app]. rewrite !map_app, <- !app_assoc. reflexivity.
        - apply (typed_rest limit W RT_TAF (Some t) [loc; (w, g); (w1, g1)] ws1 Tk L H); [rewrite E2; reflexivity|exact (Header_taf_no_type loc (w, g) t (w1, g1) Lo Is Sp)]. }
      destruct (SyntaxGroup_eq_dec (getSyntaxGroup g1) SG_NIL) as [Sn|Sn]; [rewrite Sn in Cl1; exact (Nil Cl1)|].
      destruct (SyntaxGroup_eq_dec (getSyntaxGroup g1) SG_TIME_SPAN) as [Ss|Ss]; [rewrite Ss in Cl1; exact (Span Cl1)|].
      assert (type = RT_UNKNOWN) by (destruct type; [reflexivity|congruence|]; destruct (getSyntaxGroup g1); try discriminate X1; congruence). subst type.
      inversion O as [ty wd k items Tw Co Ety Eo|Eo]; subst o; [destruct Tw as [[Z _]|[Z _]]; discriminate Z|].
      exact (untyped_rest limit W loc (w, g) t w1 ws1 g1 Tk L H Lo Is E2 P2 G1 Sn Ss).
  - assert (Ht : type = RT_TAF) by (destruct type; [discriminate X|discriminate X|reflexivity]). subst type. inversion O as [ty wd k items Tw Co|]; subst o.
    apply (typed_rest limit W RT_TAF None ((wd, keyword k) :: items ++ [loc; (w, g)]) ws' Tk L H); [|exact (Header_taf_no_time wd k items loc (w, g) Tw Co Lo Cl)].
    rewrite E. cbn [map fst app]. rewrite !map_app, <- !app_assoc. reflexivity.
  - exact (Nil Cl).
Qed.
