(** C59: the reports which are read without error, in both directions. *)
From Coq Require Import Lia.
From Verif Require Import Prim Lib Regex Float Values Weather Groups1 Groups2 Groups3 Groups4 Parser SpecTokens SpecReads SpecText SpecRegex SpecNumeral SpecTrend SpecForm SpecLimit
  SpecReach SpecBuilt SpecAssembled SpecOpenings SpecSentence SpecWhole.
From Verif Require Import Pf_Tokens Pf_Ok Pf_Caps Pf_Regex Pf_Form Pf_Total Pf_Steps Pf_Kinds Pf_View Pf_Fresh Pf_Words Pf_Built Pf_Grown Pf_Type Pf_Trend Pf_Limit Pf_OneKind Pf_TimeOnly Pf_Sentence Pf_Header Pf_Reading
  Pf_Assembled Pf_EndAppend Pf_Division Pf_EveryReport Pf_HeaderWalk.
Local Open Scope string_scope.

Lemma opening_path : forall type o loc, Opening type o -> location loc -> Path Status_init None (o ++ [loc]) (at_time_state type) None.
Proof.
  assert (W : forall type w k, type_word type w k -> header_item (w, keyword k)).
  { intros type w k [[_ H]|[_ [-> ->]]]; apply item_keyword; [cbn [In] in H |- *; tauto|cbn; tauto]. }
  intros type o loc O Lo. pose proof (item_location _ Lo) as Hl. destruct Lo as [_ El].
  destruct O as [type wd k items Tw Co|].
  - pose proof (W _ _ _ Tw) as Hw. destruct loc as [lw lg]. cbn [fst snd] in El. subst lg.
    assert (K : Path Status_init None [(wd, keyword k)] (mkStatus St_CORRECTION type RE_NONE) None).
    { apply Path_word; [exact Hw|reflexivity|reflexivity|..]; destruct Tw as [[-> I]|[-> [-> ->]]]; cbn [In] in *; try (destruct I as [I|[I|[]]]; injection I as <- <-); try reflexivity; apply Path_end. }
    destruct Co as [->|[->|[-> ->]]]; cbn [app].
    + exact (path_snoc _ _ _ _ _ (lw, GLocation (mkLocation lw)) K Hl eq_refl eq_refl eq_refl).
    + pose proof (path_snoc _ _ _ _ _ ("COR", keyword Kw_COR) K (item_keyword "COR" Kw_COR ltac:(cbn; tauto)) eq_refl eq_refl eq_refl) as K2.
      exact (path_snoc _ _ _ _ _ (lw, GLocation (mkLocation lw)) K2 Hl eq_refl eq_refl eq_refl).
    + pose proof (path_snoc _ _ _ _ _ ("AMD", keyword Kw_AMD) K (item_keyword "AMD" Kw_AMD ltac:(cbn; tauto)) eq_refl eq_refl eq_refl) as K2.
      exact (path_snoc _ _ _ _ _ (lw, GLocation (mkLocation lw)) K2 Hl eq_refl eq_refl eq_refl).
  - destruct loc as [lw lg]. cbn [fst snd] in El. subst lg. exact (path_snoc _ _ _ _ _ (lw, GLocation (mkLocation lw)) (Path_end Status_init None) Hl eq_refl eq_refl eq_refl).
Qed.
Lemma ended_read : forall p type now, refusing p -> texted (ps_groups p) -> closed_status (ps_status p) -> st_type (ps_status p) = type -> md_reportTime (ps_md p) = now ->
  exists r, parse_end p = Ok r /\ read_as r type now (rev (ps_groups p)).
Proof.
  intros p type now R X [E S] T Tm. unfold parse_end. rewrite R. destruct (ps_groups p) as [|i l]; [destruct X|]. cbn [bind texted] in *. destruct (gi_rawString i) eqn:Er; [congruence|]. cbn [sempty bind].
  eexists. split; [reflexivity|]. destruct (ps_status p) as [sta ty er]. cbn [st_state st_type st_error] in *. subst ty er now.
  destruct S as [<-|[<-|[]]]; cbn [finalTransition st_state st_type st_error]; (split; [reflexivity|split; [reflexivity|split; reflexivity]]).
Qed.
Lemma nil_read : forall limit type now l, Path Status_init None (l ++ [("NIL", keyword Kw_NIL)]) (mkStatus St_NIL type RE_NONE) now -> Forall token (map fst l ++ ["NIL"]) ->
  (length (map fst l ++ ["NIL"]) < limit)%nat ->
  exists r, parse_groups limit (map fst l ++ ["NIL"]) = Ok r /\ read_as r type now (header_groups l ++ [mkGroupInfo (keyword Kw_NIL) RP_HEADER "NIL"]).
Proof.
  intros limit type now l P Tk L. change ["NIL"] with (map fst [("NIL", keyword Kw_NIL)]) in *. rewrite <- map_app in *. rewrite map_length in L.
  destruct (header_run limit _ _ now P ltac:(destruct l; discriminate) Tk L) as (p & E & S & T & C & G & K & X & R).
  destruct (ended_read p type now R X) as (r & Er & Rr); [rewrite S; split; [reflexivity|left; reflexivity]|rewrite S; reflexivity|exact T|].
  exists r. unfold parse_groups. rewrite E. cbn [bind]. split; [exact Er|]. rewrite G in Rr. unfold header_groups in Rr |- *. rewrite map_app in Rr. exact Rr.
Qed.
Lemma word_read : forall limit type now header w k, Header type now header -> Forall token (map fst header ++ [w]) -> (length (map fst header ++ [w]) < limit)%nat ->
  KeywordGroup_parse w (body_part type) md_default = Ok (Some (mkKeyword k)) -> closed_status (transition (header_status type) (getSyntaxGroup (keyword k))) ->
  exists r, parse_groups limit (map fst header ++ [w]) = Ok r /\ read_as r type now (header_groups header ++ [mkGroupInfo (keyword k) (body_part type) w]).
Proof.
  intros limit type now header w k Hd Tk L Kw Cs. pose proof (header_path _ _ _ Hd) as P. pose proof (header_known _ _ _ Hd) as Nt.
  pose proof Tk as Tk0. apply Forall_app in Tk0. destruct Tk0 as [Th Tw]. rewrite app_length, map_length in L. cbn [length] in L.
  destruct (header_run limit _ _ now P ltac:(destruct Hd; discriminate) Th ltac:(lia)) as (p & E & S & T & C & G & K & X & R).
  assert (B : at_point limit type (body_part type) now (length header) p).
  { split; [|exact T|exact C]. rewrite S. destruct type; [congruence|split; [reflexivity|split; [reflexivity|left; reflexivity]]..]. }
  destruct (keyword_step limit type (body_part type) now _ p w (mkKeyword k) (ps_groups p) B ltac:(lia) (fun md _ => R _ w md) Kw) as (q & Eq & Sq & Gq & Tq & _).
  destruct (ended_read q type now (keyword_refusing _ _ _ _ _ Gq)) as (r & Er & Rr).
  - rewrite Gq. exact (proj1 (Forall_inv Tw)).
  - rewrite Sq, S. exact Cs.
  - rewrite Sq, S. destruct type, k; try congruence; try reflexivity; destruct Cs as [Z _]; discriminate Z.
  - exact Tq.
  - exists r. unfold parse_groups. rewrite (step_all_app _ _ _ _ _ E), Eq. cbn [bind]. split; [exact Er|]. rewrite Gq in Rr. cbn [rev] in Rr. rewrite G in Rr. exact Rr.
Qed.
Lemma nothing_read : forall limit type now items k word part, Nothing type now items (k, word) part -> Forall token (map fst items ++ [word]) -> (length (map fst items ++ [word]) < limit)%nat ->
  exists r, parse_groups limit (map fst items ++ [word]) = Ok r /\ read_as r type now (header_groups items ++ [mkGroupInfo (keyword k) part word]).
Proof.
  intros limit type now items k word part H Tk L. remember (k, word) as kw eqn:Ekw. destruct H as [type items loc O Lo|type items loc time t O Nt Lo Is|type now header Hd|now header Hd]; injection Ekw as <- <-.
  - apply nil_read; [|exact Tk|exact L]. exact (path_snoc _ _ _ _ _ ("NIL", keyword Kw_NIL) (opening_path _ _ _ O Lo) item_nil eq_refl eq_refl eq_refl).
  - apply nil_read; [|exact Tk|exact L]. pose proof (item_issued _ _ Is) as Hi. destruct time as [tw tg]. destruct Is as (s & _ & _ & Eg). cbn [snd] in Eg. subst tg.
    pose proof (path_snoc _ _ _ _ _ (tw, GReportTime (mkReportTime t)) (opening_path _ _ _ O Lo) Hi eq_refl eq_refl ltac:(destruct type; reflexivity)) as P2. cbn [snd getSyntaxGroup rt_t] in P2.
    assert (Z : transition (at_time_state type) SG_REPORT_TIME = mkStatus St_TIME_SPAN type RE_NONE) by (destruct type; [reflexivity|congruence|reflexivity]). rewrite Z in P2.
    pose proof (path_snoc _ _ _ _ _ ("NIL", keyword Kw_NIL) P2 item_nil eq_refl eq_refl eq_refl) as P3. rewrite <- !app_assoc in P3. rewrite <- !app_assoc. exact P3.
  - apply word_read; try assumption; destruct Hd; first [reflexivity|split; [reflexivity|left; reflexivity]].
  - apply word_read; try assumption; first [reflexivity|split; [reflexivity|right; left; reflexivity]].
Qed.
Theorem report_read : forall limit W type now groups n, Report W type now groups n -> Forall token W -> (n < limit)%nat ->
  exists r, parse_groups limit W = Ok r /\ read_as r type now groups.
Proof.
  intros limit W type now groups n H Tk L. destruct H as [type now header body remarks Hd Wf|loc time t body remarks Lo Is Wf Hw|type now items k word part N].
  - apply read_typed; assumption.
  - apply read_untyped; assumption.
  - apply nothing_read; assumption.
Qed.
Lemma location_first : forall loc, location loc -> seqb (fst loc) "METAR" || seqb (fst loc) "SPECI" = false.
Proof.
  intros loc [M _]. apply is_match_lang in M. rewrite orb_false_iff. split; (match goal with |- seqb ?a ?b = false => destruct (seqb a b) eqn:E; [|reflexivity] end); apply seqb_eq in E; rewrite E in M; vm_compute in M; discriminate M.
Qed.
Lemma report_count : forall W type now groups n, Report W type now groups n -> W <> [] /\ n = (length W + (if untyped_metar W type then 1 else 0))%nat.
Proof.
  assert (Typed : forall type word k x, type_word type word k -> untyped_metar (word :: x) type = false).
  { intros type word k x [[-> I]|[-> [-> ->]]]; [|reflexivity]. cbn [In] in I. destruct I as [I|[I|[]]]; injection I as <- <-; reflexivity. }
  assert (Opened : forall type o x, Opening type o -> untyped_metar (map fst o ++ x) type = false).
  { intros type o x [type' word k items Tw Co|]; [exact (Typed _ _ _ _ Tw)|]. destruct x; reflexivity. }
  assert (Headed : forall type now header x, Header type now header -> untyped_metar (map fst header ++ x) type = false).
  { intros type now header x Hd. destruct Hd; cbn [map fst app]; try (eapply Typed; eassumption). reflexivity. }
  intros W type now groups n H. destruct H as [type now header body remarks Hd Wf|loc time t body remarks Lo Is Wf Hw|type now items k word part N].
  - split; [destruct Hd; discriminate|]. rewrite (Headed _ _ _ _ Hd), Nat.add_0_r. reflexivity.
  - split; [discriminate|]. cbn [app untyped_metar]. rewrite (location_first _ Lo). cbn [ReportType_beq andb negb]. rewrite Nat.add_1_r. reflexivity.
  - split; [destruct (map fst items); discriminate|]. remember (k, word) as kw eqn:Ekw. destruct N as [type items loc O Lo|type items loc time t O Nt Lo Is|type now header Hd|now header Hd]; injection Ekw as <- <-.
    + rewrite map_app, <- app_assoc, (Opened _ _ _ O), Nat.add_0_r. reflexivity.
    + rewrite map_app, <- app_assoc, (Opened _ _ _ O), Nat.add_0_r. reflexivity.
    + rewrite (Headed _ _ _ _ Hd), Nat.add_0_r. reflexivity.
    + rewrite (Headed _ _ _ _ Hd), Nat.add_0_r. reflexivity.
Qed.
Theorem report_iff : forall sgn report limit type now groups,
  (exists r, parse sgn report limit = Ok r /\ read_as r type now groups) <-> (exists n, Report (report_groups sgn report) type now groups n /\ (n < limit)%nat).
Proof.
  intros sgn report limit type now groups. pose proof (report_tokens sgn report) as Tk. split.
  - intros (r & P & Rr). pose proof Rr as (_ & _ & Er & _). set (W := report_groups sgn report) in *.
    set (limit' := Nat.max limit (S (S (S (length W))))).
    assert (P' : parse sgn report limit' = Ok r) by (apply (limit_monotone sgn report limit limit' r); [lia|exact P|rewrite Er; discriminate]).
    assert (C : completes limit' W ps_init).
    { pose proof P' as Q. rewrite parse_eq_parse_groups in Q. unfold parse_groups in Q. fold W in Q. destruct (step_all limit' W ps_init) as [q|] eqn:E; [|discriminate Q]. cbn [bind] in Q. exists q. split; [exact E|].
      unfold parse_end in Q. apply bind_ok in Q. destruct Q as (gs & _ & Q). injection Q as <-. exact Er. }
    destruct (every_report limit' W Tk ltac:(lia) C) as (type' & now' & groups' & n & Rep).
    destruct (report_count _ _ _ _ _ Rep) as [Nw En].
    destruct (report_read limit' W type' now' groups' n Rep Tk) as (r' & Pr' & Rr'); [destruct (untyped_metar W type'); lia|].
    rewrite parse_eq_parse_groups in P'. fold W in P'. rewrite Pr' in P'. injection P' as ->.
    destruct Rr as (R1 & R2 & R3 & R4), Rr' as (Q1 & Q2 & Q3 & Q4). exists n. split; [congruence|].
    destruct (Nat.ltb_spec n limit) as [X|X]; [exact X|exfalso].
    assert (Te : md_error (pr_metadata r) = RE_REPORT_TOO_LARGE); [|congruence]. apply (limit_exact _ _ _ _ P).
    destruct (raw_text_conserved _ _ _ _ P) as (rest & Ew & Erest). rewrite (Erest Er), app_nil_r in Ew. fold W in Ew.
    assert (Et : md_type (pr_metadata r) = type') by congruence. unfold groups_counted. rewrite <- Ew, Et, <- En. split; assumption.
  - intros (n & Rep & L). destruct (report_read limit _ _ _ _ _ Rep Tk L) as (r & P & Rr). exists r. rewrite parse_eq_parse_groups. auto.
Qed.
Theorem no_error_iff : forall sgn report limit r, parse sgn report limit = Ok r ->
  (md_error (pr_metadata r) = RE_NONE <-> exists type now groups n, Report (report_groups sgn report) type now groups n /\ (n < limit)%nat).
Proof.
  intros sgn report limit r P. split.
  - intros E. destruct (proj1 (report_iff sgn report limit (md_type (pr_metadata r)) (md_reportTime (pr_metadata r)) (pr_groups r))) as (n & H); [exists r; split; [exact P|split; auto]|].
    do 3 eexists. exists n. exact H.
  - intros (type & now & groups & n & H). destruct (proj2 (report_iff sgn report limit type now groups)) as (r' & P' & R'); [eauto|]. rewrite P in P'. injection P' as <-. apply R'.
Qed.
Theorem report_one_way : forall sgn report type now groups n type' now' groups' n',
  Report (report_groups sgn report) type now groups n -> Report (report_groups sgn report) type' now' groups' n' ->
  type = type' /\ now = now' /\ groups = groups' /\ n = n'.
Proof.
  intros sgn report type now groups n type' now' groups' n' A B. pose proof (report_tokens sgn report) as Tk.
  destruct (report_read (S (n + n')) _ _ _ _ _ A Tk ltac:(lia)) as (r & P & (R1 & R2 & R3 & R4)).
  destruct (report_read (S (n + n')) _ _ _ _ _ B Tk ltac:(lia)) as (r' & P' & (Q1 & Q2 & Q3 & Q4)).
  rewrite P in P'. injection P' as <-. assert (T : type = type') by congruence.
  destruct (report_count _ _ _ _ _ A) as [_ E], (report_count _ _ _ _ _ B) as [_ E']. rewrite <- T in E'.
  split; [exact T|split; [congruence|split; [congruence|]]]. rewrite E, E'. reflexivity.
Qed.
