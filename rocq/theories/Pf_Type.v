(** The report type and the first words of the report (C11). *)
From Verif Require Import Prim Regex Float Values Weather Groups1 Groups2 Groups3 Groups4 Parser Lib
  SpecTokens SpecReads Pf_Tokens SpecText SpecLimit SpecGrammar SpecMeta SpecForm SpecType SpecRegex Pf_Regex Pf_Form SpecDecimal Pf_Decimal
  Pf_Ok SpecReach Pf_Total Pf_Steps Pf_Kinds Pf_View Pf_Fresh Pf_Shape Pf_Limit Pf_Grammar Pf_Grammar2 Pf_Active Pf_Meta Pf_Meta2.
Local Open Scope string_scope.

Lemma location_match : forall s, is_match rgx_location s = fits location_form s.
Proof. flat_tac. Qed.
Lemma report_time_match : forall s, is_match rgx_reporttime s = fits report_time_form s.
Proof. flat_tac. Qed.
Lemma time_span_match : forall s, is_match rgx_timespan s = fits time_span_form s.
Proof. flat_tac. Qed.

Lemma two_digits : forall s (n : nat), (exists a c, fits (a ++ repeat digit 2 ++ c) s = true /\ List.length a = n) ->
  exists v, strToUint s n 2 = Ok (Some v) /\ decimal (substring n 2 s) = Some v.
Proof.
  intros s n (a & c & F & <-).
  pose proof (fits_sub _ _ _ _ F) as G; apply digits_decimal in G; destruct G as [v V]; exists v.
  cbn [List.length repeat] in V.
  split; [|exact V]; apply strToUint_iff; [lia|]; split; [lia|]; split; [|exact V].
  apply fits_length in F; rewrite !app_length in F; cbn [repeat List.length] in F; slia.
Qed.
Ltac two_digits s n a c := 
  let v := fresh "v" in let E := fresh "E" in
  destruct (two_digits s n) as (v & E & _); [exists a, c; split; [assumption | reflexivity]|].

Lemma header_location : forall s md, LocationGroup_parse s RP_HEADER md = Ok None <-> fits location_form s = false.
Proof.
  intros s md; unfold LocationGroup_parse; cbn [is_part ReportPart_beq negb]; rewrite location_match.
  destruct (fits location_form s); cbn; split; congruence.
Qed.
Lemma ddhhmm_six : forall s, fits (repeat digit 6) s = true ->
  exists d h m, MetafTime_fromStringDDHHMM s = Ok (Some (mkTime (Some d) h m))
    /\ decimal (substring 0 2 s) = Some d /\ decimal (substring 2 2 s) = Some h /\ decimal (substring 4 2 s) = Some m.
Proof.
  intros s F; unfold MetafTime_fromStringDDHHMM; pose proof (fits_length _ _ F) as L; rewrite L; cbn [repeat List.length Nat.eqb].
  destruct (two_digits s 0) as (d & Ed & Dd); [exists [], (repeat digit 4); auto|].
  destruct (two_digits s 2) as (h & Eh & Dh); [exists (repeat digit 2), (repeat digit 2); auto|].
  destruct (two_digits s 4) as (m & Em & Dm); [exists (repeat digit 4), []; auto|].
  rewrite Ed, Eh, Em; cbn [bind]; exists d, h, m; auto.
Qed.
Lemma ddhhmm_four : forall s, fits (repeat digit 4) s = true ->
  exists h m, MetafTime_fromStringDDHHMM s = Ok (Some (mkTime None h m))
    /\ decimal (substring 0 2 s) = Some h /\ decimal (substring 2 2 s) = Some m.
Proof.
  intros s F; unfold MetafTime_fromStringDDHHMM; pose proof (fits_length _ _ F) as L; rewrite L; cbn [repeat List.length Nat.eqb].
  destruct (two_digits s 0) as (d & Ed & Dd); [exists [], (repeat digit 2); auto|].
  destruct (two_digits s 2) as (h & Eh & Dh); [exists (repeat digit 2), []; auto|].
  rewrite Ed, Eh; cbn [bind]; exists d, h; auto.
Qed.
Lemma ddhh : forall s, fits (repeat digit 4) s = true ->
  exists d h, MetafTime_fromStringDDHH s = Ok (Some (mkTime (Some d) h 0))
    /\ decimal (substring 0 2 s) = Some d /\ decimal (substring 2 2 s) = Some h.
Proof.
  intros s F; unfold MetafTime_fromStringDDHH; pose proof (fits_length _ _ F) as L; rewrite L; cbn [repeat List.length Nat.eqb negb].
  destruct (two_digits s 0) as (d & Ed & Dd); [exists [], (repeat digit 2); auto|].
  destruct (two_digits s 2) as (h & Eh & Dh); [exists (repeat digit 2), []; auto|].
  rewrite Ed, Eh; cbn [bind]; exists d, h; auto.
Qed.
Lemma header_report_time : forall s md, 
  (fits report_time_form s = false /\ ReportTimeGroup_parse s RP_HEADER md = Ok None)
  \/ (fits report_time_form s = true
      /\ exists d h m, ReportTimeGroup_parse s RP_HEADER md = Ok (Some (mkReportTime (mkTime (Some d) h m)))
         /\ decimal (substring 0 2 s) = Some d /\ decimal (substring 2 2 s) = Some h /\ decimal (substring 4 2 s) = Some m).
Proof.
  intros s md; unfold ReportTimeGroup_parse; cbn [is_part ReportPart_beq negb]; rewrite report_time_match.
  destruct (fits report_time_form s) eqn:F; [right | left; auto]; split; [reflexivity|]; cbn [negb].
  assert (F6 : fits (repeat digit 6) (substring 0 6 s) = true) by (apply (fits_sub [] (repeat digit 6) [just "Z"]); exact F).
  assert (L : slen s = 7%nat) by (apply fits_length in F; exact F).
  unfold substr; replace (Nat.leb 0 (slen s)) with true by reflexivity; cbn [bind].
  destruct (ddhhmm_six _ F6) as (d & h & m & E & A & B & C).
  exists d, h, m.
  assert (S : forall k, (k + 2 <= 6)%nat -> substring k 2 (substring 0 6 s) = substring k 2 s).
  { clear - L; intros k K; destruct s as [|c0 [|c1 [|c2 [|c3 [|c4 [|c5 [|c6 [|]]]]]]]]; try discriminate L.
    do 5 (destruct k as [|k]; [reflexivity|]); lia. }
  rewrite !S in * by lia.
  cbn [Nat.leb Nat.ltb] in *; rewrite E; cbn [bind]; auto.
Qed.
Lemma header_time_span : forall s md,
  (fits time_span_form s = false /\ TrendGroup_parse s RP_HEADER md = Ok None)
  \/ (fits time_span_form s = true
      /\ exists d h d' h', TrendGroup_parse s RP_HEADER md
           = Ok (Some (mkTrend Tr_TIME_SPAN Pr_NONE true (Some (mkTime (Some d) h 0)) (Some (mkTime (Some d') h' 0)) None))
         /\ decimal (substring 0 2 s) = Some d /\ decimal (substring 2 2 s) = Some h
         /\ decimal (substring 5 2 s) = Some d' /\ decimal (substring 7 2 s) = Some h').
Proof.
  intros s md; unfold TrendGroup_parse; cbn [is_part ReportPart_beq andb orb or_else bind].
  unfold Trend_fromTimeSpan; pose proof (time_span_match s) as M; unfold is_match in M.
  destruct (regex_match rgx_timespan s) as [m|] eqn:R; cbn [has_value] in M; [right | left; auto].
  split; [auto|]; symmetry in M.
  pose proof (flat_captures rgx_timespan _ s m eq_refl R) as C; vm_compute places in C; cbn [map fst snd] in C.
  assert (F1 : fits (repeat digit 4) (substring 0 4 s) = true).
  { apply (fits_sub [] (repeat digit 4) [just "/"; digit; digit; digit; digit]); exact M. }
  assert (F2 : fits (repeat digit 4) (substring 5 4 s) = true).
  { apply (fits_sub [digit; digit; digit; digit; just "/"] (repeat digit 4) []); exact M. }
  assert (L : slen s = 9%nat) by (apply fits_length in M; exact M).
  assert (E1 : mstr m 1 = substring 0 4 s) by (rewrite C; reflexivity).
  assert (E2 : mstr m 2 = substring 5 4 s) by (rewrite C; reflexivity).
  rewrite E1, E2; destruct (ddhh _ F1) as (d & h & X1 & A1 & B1); destruct (ddhh _ F2) as (d' & h' & X2 & A2 & B2).
  rewrite X1, X2; cbn [bind]; exists d, h, d', h'; split; [reflexivity|].
  clear - A1 B1 A2 B2 L; destruct s as [|c0 [|c1 [|c2 [|c3 [|c4 [|c5 [|c6 [|c7 [|c8 [|]]]]]]]]]]; try discriminate L; auto.
Qed.

(** What a word is to the syntax in the header *)
Definition header_class (s : string) : SyntaxGroup :=
  if seqb s "METAR" then SG_METAR else if seqb s "SPECI" then SG_SPECI else if seqb s "TAF" then SG_TAF
  else if seqb s "AMD" then SG_AMD else if seqb s "COR" then SG_COR else if seqb s "NIL" then SG_NIL
  else if seqb s "CNL" then SG_CNL else if seqb s "$" then SG_MAINTENANCE_INDICATOR
  else if fits location_form s then SG_LOCATION
  else if fits report_time_form s then SG_REPORT_TIME
  else if fits time_span_form s then SG_TIME_SPAN
  else SG_OTHER.
Lemma header_keyword_none : forall s md, KeywordGroup_parse s RP_HEADER md = Ok None ->
  header_class s = if fits location_form s then SG_LOCATION
    else if fits report_time_form s then SG_REPORT_TIME
    else if fits time_span_form s then SG_TIME_SPAN
    else SG_OTHER.
Proof.
  intros s md H; unfold KeywordGroup_parse in H; cbn [is_part ReportPart_beq andb orb] in H; unfold header_class.
  repeat match type of H with
  | (if ?b then _ else _) = _ => destruct b; [discriminate H|]
  end; reflexivity.
Qed.
Lemma header_class_parse : forall s md g, GroupParser_parse s RP_HEADER md = Ok g -> getSyntaxGroup g = header_class s.
Proof.
  intros s md g H; apply GroupParser_parse_inv in H; destruct H as [P R].
  assert (K : (0 < Group_index g)%nat -> KeywordGroup_parse s RP_HEADER md = Ok None).
  { intros I; specialize (R 0%nat _ I eq_refl); apply alternative_none in R; exact R. }
  assert (K1 : (1 < Group_index g)%nat -> LocationGroup_parse s RP_HEADER md = Ok None).
  { intros I; specialize (R 1%nat _ I eq_refl); apply alternative_none in R; exact R. }
  assert (K2 : (2 < Group_index g)%nat -> ReportTimeGroup_parse s RP_HEADER md = Ok None).
  { intros I; specialize (R 2%nat _ I eq_refl); apply alternative_none in R; exact R. }
  assert (K3 : (3 < Group_index g)%nat -> TrendGroup_parse s RP_HEADER md = Ok None).
  { intros I; specialize (R 3%nat _ I eq_refl); apply alternative_none in R; exact R. }
  clear R.
  assert (Other : (3 < Group_index g)%nat -> header_class s = SG_OTHER).
  { intros I; rewrite (header_keyword_none _ _ (K ltac:(lia))).
    specialize (K1 ltac:(lia)); apply header_location in K1; rewrite K1.
    destruct (header_report_time s md) as [[-> _]|(_ & d & h & m & E & _)]; [|rewrite (K2 ltac:(lia)) in E; discriminate E].
    destruct (header_time_span s md) as [[-> _]|(_ & d & h & d' & h' & E & _)]; [|rewrite (K3 I) in E; discriminate E].
    reflexivity. }
  destruct g; try (rewrite Other by (cbn; lia); reflexivity).
  - (* keyword *)
    destruct P as [P|P]; [discriminate P|]; cbn [parsed_as] in P; destruct g as [k].
    apply header_parse_keyword in P; cbn in P |- *; destruct k; try contradiction P; subst s; reflexivity.
  - (* location *)
    destruct P as [P|P]; [discriminate P|]; cbn [parsed_as] in P; rewrite (header_keyword_none _ _ (K ltac:(cbn; lia))).
    destruct (fits location_form s) eqn:F; [reflexivity|]; apply (header_location s md) in F; congruence.
  - (* report time *)
    destruct P as [P|P]; [discriminate P|]; cbn [parsed_as] in P; rewrite (header_keyword_none _ _ (K ltac:(cbn; lia))).
    specialize (K1 ltac:(cbn; lia)); apply header_location in K1; rewrite K1.
    destruct (header_report_time s md) as [[_ E]|(-> & _)]; [congruence | reflexivity].
  - (* trend *)
    destruct P as [P|P]; [discriminate P|]; cbn [parsed_as] in P; rewrite (header_keyword_none _ _ (K ltac:(cbn; lia))).
    specialize (K1 ltac:(cbn; lia)); apply header_location in K1; rewrite K1.
    destruct (header_report_time s md) as [[-> _]|(_ & d & h & m & E & _)]; [|rewrite (K2 ltac:(cbn; lia)) in E; discriminate E].
    destruct (header_time_span s md) as [[_ E]|(-> & d & h & d' & h' & E & _)]; [congruence|].
    rewrite P in E; injection E as ->; reflexivity.
Qed.

(** ** The first words *)
Definition head_active (l : list GroupInfo) : Prop := match l with i :: _ => active (gi_group i) = true | [] => True end.
Lemma fresh_step : forall limit s p q, Inv p -> isError (ps_status p) = false -> head_active (ps_groups p) ->
  parse_step limit s p = Ok q ->
  exists g part st n, FreshFrom limit s p g part st n
    /\ (ps_count q, ps_status q) = count_group limit n (transition st (getSyntaxGroup g))
    /\ ps_groups q = addGroupToResult (ps_groups p) g part s.
Proof.
  intros limit s p q I Er H E; unfold parse_step in E; cbv zeta in E.
  apply bind_ok in E; destruct E as ([l b] & A & E).
  assert (X : l = ps_groups p /\ b = false).
  { destruct (ps_groups p) as [|i l0] eqn:G; cbn [appendToLastResultGroup] in A.
    - apply ok_pair_inj in A; exact A.
    - assert (R : all_reachable (ps_groups p)) by apply I; rewrite G in R; apply Forall_inv in R.
      destruct (is_fallback (gi_group i)); [apply ok_pair_inj in A; exact A|].
      apply bind_ok in A; destruct A as ([g a] & Ag & A); cbn in H.
      rewrite active_append in Ag by assumption; apply ok_pair_inj in Ag; destruct Ag as [-> ->].
      apply ok_pair_inj in A; destruct A as [-> ->]; destruct i; auto. }
  destruct X as [-> ->]; cbn [negb] in E.
  apply bind_ok in E; destruct E as ([[[g part] n] st] & G & E).
  apply bind_ok in E; destruct E as (md & _ & E); injection E as <-; cbn [ps_count ps_status ps_groups].
  apply loop_fresh in G; [|apply I; exact Er|exact Er]; destruct G as (st0 & n0 & F & C & _).
  exists g, part, st0, n0; auto.
Qed.
Definition Stable (used : list string) : Prop := forall rest, documented_type (used ++ rest)%list = documented_type used.
Lemma stable_app : forall used rest, Stable used -> Stable (used ++ rest)%list.
Proof. intros used rest H r; rewrite <- app_assoc, !H; reflexivity. Qed.
Lemma stable_known : forall used, documented_type used <> RT_UNKNOWN -> Stable used.
Proof.
  intros [|a used] N rest; [exfalso; apply N; reflexivity|]; cbn [documented_type app] in *.
  destruct (seqb a "METAR" || seqb a "SPECI"); [reflexivity|]; destruct (seqb a "TAF"); [reflexivity|].
  destruct used as [|b [|c used]]; try (exfalso; apply N; reflexivity); reflexivity.
Qed.
Lemma stable_no_location : forall a used, fits location_form a = false -> Stable (a :: used).
Proof.
  intros a used F rest; cbn [documented_type app]; rewrite F; cbn [andb].
  destruct (seqb a "METAR" || seqb a "SPECI"); [reflexivity|]; destruct (seqb a "TAF"); [reflexivity|].
  destruct used as [|b [|c used]]; destruct rest as [|x [|y rest]]; reflexivity.
Qed.
Lemma stable_no_time : forall a b used, fits report_time_form b = false -> Stable (a :: b :: used).
Proof.
  intros a b used F rest; cbn [documented_type app]; rewrite F, andb_false_r.
  destruct (seqb a "METAR" || seqb a "SPECI"); [reflexivity|]; destruct (seqb a "TAF"); [reflexivity|].
  destruct used as [|c used]; destruct rest as [|x rest]; reflexivity.
Qed.
Lemma stable_three : forall a b c used, Stable (a :: b :: c :: used).
Proof. intros a b c used rest; reflexivity. Qed.

Definition UntypedNil (words : list string) : Prop :=
  exists location rest, words = location :: rest /\ fits location_form location = true
    /\ (rest = ["NIL"] \/ exists time, rest = [time; "NIL"] /\ fits report_time_form time = true).
Record TypeInv (limit : nat) (used : list string) (p : ParserState) : Prop :=
  { ti_type : st_type (ps_status p) = documented_type used;
    ti_stable : isError (ps_status p) = true -> Stable used \/ (limit <= List.length used)%nat;
    ti_known : isError (ps_status p) = false -> st_type (ps_status p) = RT_UNKNOWN ->
      (used = [] /\ p = ps_init)
      \/ (exists a, used = [a] /\ fits location_form a = true /\ st_state (ps_status p) = St_REPORT_TIME /\ head_active (ps_groups p) /\ ps_count p = 1%nat)
      \/ (exists a b, used = [a; b] /\ fits location_form a = true /\ fits report_time_form b = true
          /\ st_state (ps_status p) = St_TIME_SPAN /\ head_active (ps_groups p) /\ ps_count p = 2%nat)
      \/ (st_state (ps_status p) = St_NIL /\ Stable used /\ head_active (ps_groups p) /\ UntypedNil used);
    ti_typed : isError (ps_status p) = false -> st_type (ps_status p) <> RT_UNKNOWN ->
      st_state (ps_status p) <> St_REPORT_TYPE_OR_LOCATION
      /\ (st_state (ps_status p) = St_TIME_SPAN -> st_type (ps_status p) = RT_TAF) }.

Lemma location_not_keyword : forall s, fits location_form s = true ->
  seqb s "METAR" = false /\ seqb s "SPECI" = false /\ seqb s "TAF" = false.
Proof.
  intros s F; apply fits_length in F.
  repeat split; match goal with |- seqb s ?t = false => destruct (seqb s t) eqn:X; [apply seqb_eq in X; subst s; discriminate F | reflexivity] end.
Qed.
Ltac class_cases s :=
  unfold header_class;
  repeat match goal with
  | |- context [seqb s ?t] => let X := fresh in destruct (seqb s t) eqn:X; [apply seqb_eq in X; subst s|]
  end.
(** A known type stays, whatever is read *)
Lemma typed_transition : forall st g, isError st = false -> st_type st <> RT_UNKNOWN ->
  st_state st <> St_REPORT_TYPE_OR_LOCATION -> (st_state st = St_TIME_SPAN -> st_type st = RT_TAF) ->
  st_type (transition st g) = st_type st
  /\ (isError (transition st g) = false ->
      st_state (transition st g) <> St_REPORT_TYPE_OR_LOCATION
      /\ (st_state (transition st g) = St_TIME_SPAN -> st_type (transition st g) = RT_TAF)).
Proof.
  intros [s t e] g E U N H; destruct t; try (exfalso; apply U; reflexivity);
  destruct s; cbn in N, H; try (exfalso; apply N; reflexivity); try (specialize (H eq_refl); discriminate H);
  destruct g; cbn; (split; [reflexivity|]; intros _; split; [try discriminate | try discriminate; auto]).
Qed.
Lemma type_kept : forall limit s p q, isError (ps_status p) = false -> st_type (ps_status p) <> RT_UNKNOWN ->
  (st_state (ps_status p) <> St_REPORT_TYPE_OR_LOCATION
   /\ (st_state (ps_status p) = St_TIME_SPAN -> st_type (ps_status p) = RT_TAF)) ->
  Step limit s p q ->
  st_type (ps_status q) = st_type (ps_status p)
  /\ (isError (ps_status q) = false ->
      st_state (ps_status q) <> St_REPORT_TYPE_OR_LOCATION
      /\ (st_state (ps_status q) = St_TIME_SPAN -> st_type (ps_status q) = RT_TAF)).
Proof.
  intros limit s p q E U [N H] St; destruct St as [Vq Mq C|g part st n F C _ _ _ _].
  - apply count_group_error in C; destruct C as [_ [[_ ->]|[_ ->]]]; [split; [reflexivity | discriminate] | auto].
  - assert (X : st = ps_status p) by (inversion F; [reflexivity | congruence]); subst st.
    destruct (typed_transition (ps_status p) (getSyntaxGroup g) E U N H) as [A B].
    apply count_group_error in C; destruct C as [_ [[_ ->]|[_ ->]]]; [split; [exact A | discriminate] | auto].
Qed.
Lemma head_active_add : forall l g part s, active g = true -> head_active (addGroupToResult l g part s).
Proof.
  intros l g part s A; unfold addGroupToResult.
  destruct l as [|i l]; [exact A|].
  destruct (is_fallback g) eqn:Fb; [destruct g; try discriminate Fb; discriminate A|].
  cbn [andb]; rewrite ?andb_false_r; exact A.
Qed.
Lemma active_syntax : forall g, getSyntaxGroup g <> SG_OTHER -> active g = true.
Proof. intros g H; destruct (active g) eqn:A; [reflexivity|]; apply passive_other in A; contradiction. Qed.

Lemma type_first : forall limit s p q, p = ps_init -> Inv p -> parse_step limit s p = Ok q -> TypeInv limit [s] q.
Proof.
  intros limit s p q -> I E; apply fresh_step in E; [|exact I|reflexivity|exact Logic.I].
  destruct E as (g & part & st & n & F & C & G); inversion F; subst; clear F; [|discriminate].
  change (getReportPart (ps_status ps_init)) with RP_HEADER in *; rename H into P.
  apply header_class_parse in P; rewrite P in *; rename H0 into X; clear X.
  assert (T : st_type (transition (ps_status ps_init) (header_class s)) = documented_type [s]).
  { clear; cbn [documented_type]; class_cases s; try reflexivity.
    destruct (fits location_form s); [reflexivity|]; destruct (fits report_time_form s); [reflexivity|].
    destruct (fits time_span_form s); reflexivity. }
  apply count_group_error in C; destruct C as [Cn [[L C]|[L C]]].
  - constructor; rewrite ?C; try discriminate; [exact T | intros _; right; cbn in L |- *; exact L].
  - constructor; rewrite ?C.
    + exact T.
    + intros Er; left; destruct (fits location_form s) eqn:Fl; [|apply stable_no_location; exact Fl].
      destruct (location_not_keyword _ Fl) as (A1 & A2 & A3).
      apply stable_known; rewrite <- T; intros U; exfalso; revert Er; clear - Fl A1 A2 A3.
      class_cases s; try discriminate A1; try discriminate A2; try discriminate A3; try discriminate Fl; rewrite Fl; discriminate.
    + intros Er U; right; left; exists s.
      assert (Fl : header_class s = SG_LOCATION).
      { destruct (header_class s); try discriminate Er; try discriminate U; reflexivity. }
      refine (conj eq_refl (conj _ (conj _ (conj _ _)))).
      * revert Fl; clear; class_cases s; try discriminate; destruct (fits location_form s); [reflexivity|].
        destruct (fits report_time_form s); [discriminate|]; destruct (fits time_span_form s); discriminate.
      * rewrite Fl; reflexivity.
      * rewrite G; apply head_active_add, active_syntax; rewrite P, Fl; discriminate.
      * exact Cn.
    + intros Er U; destruct (header_class s); try discriminate Er; try (exfalso; apply U; reflexivity); cbn; (split; discriminate).
Qed.
Lemma header_class_inv : forall s,
  (header_class s = SG_LOCATION -> fits location_form s = true)
  /\ (header_class s = SG_REPORT_TIME -> fits report_time_form s = true)
  /\ (header_class s = SG_TIME_SPAN -> fits time_span_form s = true)
  /\ (header_class s = SG_NIL -> s = "NIL").
Proof.
  intros s; class_cases s; try (repeat split; (discriminate || reflexivity)).
  destruct (fits location_form s); destruct (fits report_time_form s); destruct (fits time_span_form s);
    repeat split; (discriminate || reflexivity).
Qed.
Lemma form_class : forall s,
  (fits location_form s = true -> header_class s = SG_LOCATION)
  /\ (fits report_time_form s = true -> header_class s = SG_REPORT_TIME)
  /\ (fits time_span_form s = true -> header_class s = SG_TIME_SPAN).
Proof.
  intros s; class_cases s; try (repeat split; discriminate).
  destruct (fits location_form s) eqn:L; destruct (fits report_time_form s) eqn:R; destruct (fits time_span_form s) eqn:T;
    repeat split; try discriminate; intros _; try reflexivity;
    try (apply fits_length in L); try (apply fits_length in R); try (apply fits_length in T); exfalso; clear - L R T;
    cbn in *; congruence.
Qed.
Lemma type_second : forall limit a s p q, fits location_form a = true ->
  isError (ps_status p) = false -> st_type (ps_status p) = RT_UNKNOWN ->
  st_state (ps_status p) = St_REPORT_TIME -> head_active (ps_groups p) -> ps_count p = 1%nat ->
  Inv p -> parse_step limit s p = Ok q -> TypeInv limit [a; s] q.
Proof.
  intros limit a s p q Fa Er U St H Pc I E; apply fresh_step in E; [|exact I|exact Er|exact H].
  destruct E as (g & part & st & n & F & C & G); inversion F; subst; clear F; [|congruence].
  assert (Part : getReportPart (ps_status p) = RP_HEADER) by (unfold getReportPart; rewrite St; reflexivity).
  rewrite Part in *; rename H0 into P; clear H1; apply header_class_parse in P; rewrite P in *.
  destruct (ps_status p) as [s0 t0 e0]; cbn in U, St; subst s0 t0; rewrite Pc in *.
  destruct (location_not_keyword _ Fa) as (A1 & A2 & A3).
  assert (T : documented_type [a; s] = RT_UNKNOWN) by (cbn [documented_type]; rewrite A1, A2, A3; reflexivity).
  assert (T' : st_type (transition (mkStatus St_REPORT_TIME RT_UNKNOWN e0) (header_class s)) = RT_UNKNOWN)
    by (destruct (header_class s); reflexivity).
  assert (Sb : header_class s <> SG_REPORT_TIME -> Stable [a; s]).
  { intros N; apply stable_no_time; destruct (fits report_time_form s) eqn:Fs; [|reflexivity].
    exfalso; apply N, form_class, Fs. }
  apply count_group_error in C; destruct C as [Cn [[L C]|[L C]]].
  - constructor; rewrite ?C, ?T; try discriminate; [exact T' | intros _; right; exact L].
  - constructor; rewrite ?C, ?T.
    + exact T'.
    + intros Eq; left; apply Sb; intros X; rewrite X in Eq; unfold isError in *; cbn in Eq, Er; congruence.
    + intros Eq _; destruct (SyntaxGroup_beq (header_class s) SG_REPORT_TIME) eqn:X.
      * apply internal_SyntaxGroup_dec_bl in X; right; right; left; exists a, s.
        refine (conj eq_refl (conj Fa (conj _ (conj _ (conj _ _))))).
        -- apply header_class_inv, X.
        -- rewrite X; reflexivity.
        -- rewrite G; apply head_active_add, active_syntax; rewrite P, X; discriminate.
        -- exact Cn.
      * assert (Y : header_class s = SG_NIL).
        { unfold isError in *; destruct (header_class s); try discriminate Eq; try discriminate X; reflexivity. }
        right; right; right; refine (conj _ (conj _ (conj _ _))).
        -- rewrite Y; reflexivity.
        -- apply Sb; rewrite Y; discriminate.
        -- rewrite G; apply head_active_add, active_syntax; rewrite P, Y; discriminate.
        -- apply header_class_inv in Y; subst s; exists a, ["NIL"]; auto.
    + intros _ N; contradiction.
Qed.
Lemma type_third : forall limit a b s p q, fits location_form a = true -> fits report_time_form b = true ->
  isError (ps_status p) = false -> st_type (ps_status p) = RT_UNKNOWN ->
  st_state (ps_status p) = St_TIME_SPAN -> head_active (ps_groups p) ->
  Inv p -> parse_step limit s p = Ok q -> TypeInv limit [a; b; s] q.
Proof.
  intros limit a b s p q Fa Fb Er U St H I E; apply fresh_step in E; [|exact I|exact Er|exact H].
  destruct (location_not_keyword _ Fa) as (A1 & A2 & A3).
  assert (T : documented_type [a; b; s] = if fits time_span_form s then RT_TAF else if seqb s "NIL" then RT_UNKNOWN else RT_METAR)
    by (cbn [documented_type]; rewrite A1, A2, A3, Fa, Fb; reflexivity).
  assert (Sb : Stable [a; b; s]) by apply stable_three.
  destruct E as (g & part & st & n & F & C & G).
  assert (Part : getReportPart (ps_status p) = RP_HEADER) by (unfold getReportPart; rewrite St; reflexivity).
  assert (T2 : documented_type [a; b; s] = match header_class s with SG_TIME_SPAN => RT_TAF | SG_NIL => RT_UNKNOWN | _ => RT_METAR end).
  { rewrite T; destruct (fits time_span_form s) eqn:Fs.
    - apply form_class in Fs; rewrite Fs; reflexivity.
    - destruct (seqb s "NIL") eqn:Fn; [apply seqb_eq in Fn; subst s; reflexivity|].
      destruct (header_class s) eqn:X; try reflexivity; apply header_class_inv in X; [congruence | subst s; discriminate Fn]. }
  inversion F; subst; clear F.
  - rewrite Part in *; rename H0 into P; rename H1 into Lm; apply header_class_parse in P; rewrite P in *.
    destruct (ps_status p) as [s0 t0 e0]; cbn in U, St; subst s0 t0.
    assert (T' : st_type (transition (mkStatus St_TIME_SPAN RT_UNKNOWN e0) (header_class s)) = documented_type [a; b; s])
      by (rewrite T2; destruct (header_class s); reflexivity).
    apply count_group_error in C; destruct C as [Cn [[L C]|[L C]]].
    + constructor; rewrite ?C; try discriminate; [exact T' | intros _; left; exact Sb].
    + constructor; rewrite ?C; [exact T' | intros _; left; exact Sb | |].
      * intros Eq X; right; right; right.
        assert (Y : header_class s = SG_NIL) by (destruct (header_class s); try discriminate X; reflexivity).
        refine (conj _ (conj Sb (conj _ _))).
        -- rewrite Y; reflexivity.
        -- rewrite G; apply head_active_add, active_syntax; rewrite P, Y; discriminate.
        -- apply header_class_inv in Y; subst s; exists a, [b; "NIL"]; refine (conj eq_refl (conj Fa (or_intror _))); exists b; auto.
      * intros Eq X; destruct (header_class s); try (exfalso; apply X; reflexivity); cbn; (split; discriminate).
  - rename H0 into P; apply header_class_parse in P; rewrite P in *.
    assert (T' : documented_type [a; b; s] = RT_METAR).
    { rewrite T2; destruct (header_class s); try reflexivity; exfalso; auto. }
    assert (Y : forall x, st_type (transition {| st_state := St_REPORT_BODY_BEGIN_METAR_REPEAT_PARSE; st_type := RT_METAR; st_error := st_error (ps_status p) |} x) = RT_METAR
      /\ st_state (transition {| st_state := St_REPORT_BODY_BEGIN_METAR_REPEAT_PARSE; st_type := RT_METAR; st_error := st_error (ps_status p) |} x) <> St_REPORT_TYPE_OR_LOCATION
      /\ st_state (transition {| st_state := St_REPORT_BODY_BEGIN_METAR_REPEAT_PARSE; st_type := RT_METAR; st_error := st_error (ps_status p) |} x) <> St_TIME_SPAN)
      by (intros x; destruct x; cbn; repeat split; discriminate).
    destruct (Y (getSyntaxGroup g)) as (Y1 & Y2 & Y3).
    apply count_group_error in C; destruct C as [Cn [[L C]|[L C]]];
      constructor; rewrite ?C, ?T'; try discriminate.
    + exact Y1.
    + intros _; left; exact Sb.
    + exact Y1.
    + intros _; left; exact Sb.
    + intros _ X; rewrite Y1 in X; discriminate X.
    + intros _ _; split; [exact Y2 | intros X; contradiction].
Qed.
Lemma type_nil : forall limit used s p q, Stable used -> st_type (ps_status p) = documented_type used ->
  isError (ps_status p) = false -> st_type (ps_status p) = RT_UNKNOWN ->
  st_state (ps_status p) = St_NIL -> head_active (ps_groups p) -> Inv p -> parse_step limit s p = Ok q ->
  TypeInv limit (used ++ [s]) q.
Proof.
  intros limit used s p q Sb T Er U St H I E; apply fresh_step in E; [|exact I|exact Er|exact H].
  assert (T' : documented_type (used ++ [s])%list = RT_UNKNOWN) by (rewrite Sb; congruence).
  assert (Sb' := stable_app used [s] Sb).
  destruct E as (g & part & st & n & F & C & _).
  assert (X : st = ps_status p) by (inversion F; [reflexivity | congruence]); subst st.
  destruct (ps_status p) as [s0 t0 e0]; cbn in U, St; subst s0 t0.
  apply count_group_error in C; destruct C as [_ [[_ C]|[_ C]]]; constructor; rewrite ?C, ?T'; try discriminate; auto.
Qed.
Lemma type_steps : forall limit used p, Steps limit used p -> TypeInv limit used p.
Proof.
  intros limit; apply steps_induction.
  - constructor; try reflexivity; try discriminate; [intros _ _; left; auto | intros _ X; exfalso; apply X; reflexivity].
  - intros used p s q _ Ip Er E St _ [T1 T2 T3 T4].
    assert (D : {st_type (ps_status p) = RT_UNKNOWN} + {st_type (ps_status p) <> RT_UNKNOWN}) by (decide equality).
    destruct D as [U|U].
    + destruct (T3 Er U) as [[-> ->]|[(a & -> & Fa & Sa & Ha & Ca)|[(a & b & -> & Fa & Fb & Sa & Ha & Ca)|(Sa & Sb & Ha & _)]]].
      * eapply type_first; eauto.
      * eapply type_second; eauto.
      * eapply type_third; eauto.
      * eapply type_nil; eauto.
    + destruct (type_kept _ _ _ _ Er U (T4 Er U) St) as [A B].
      assert (Sb : Stable used) by (apply stable_known; congruence).
      constructor.
      * rewrite Sb; congruence.
      * intros _; left; apply stable_app, Sb.
      * intros _ X; congruence.
      * intros X _; auto.
Qed.

(** ** The type of the report *)
Lemma type_of_report : forall sgn report limit r, parse sgn report limit = Ok r ->
  md_type (pr_metadata r) = documented_type (firstn (Nat.max 1 limit) (report_groups sgn report)).
Proof.
  intros sgn report limit r E; destruct (parse_counted _ _ _ _ E) as (rest & p & T & S & R & Ty & _).
  rewrite Ty, T; pose proof (type_steps _ _ _ S) as [T1 T2 _ _]; pose proof (consumed_bound _ _ _ S) as B.
  rewrite T1; set (used := words_of_result r) in *.
  assert (B' : (List.length used <= Nat.max 1 limit)%nat) by lia.
  rewrite firstn_app, (firstn_all2 used) by exact B'.
  destruct R as [-> |Er]; [rewrite firstn_nil, app_nil_r; reflexivity|].
  destruct (T2 Er) as [Sb|L]; [rewrite Sb; reflexivity|].
  assert (N : List.length used <> 0%nat).
  { clearbody used; intros N; inversion S; subst; [discriminate Er|]; rewrite app_length in N; cbn in N; lia. }
  replace (Nat.max 1 limit - List.length used)%nat with 0%nat by lia.
  rewrite firstn_O, app_nil_r; reflexivity.
Qed.
Lemma type_of_report_three : forall sgn report limit r, (3 <= limit)%nat -> parse sgn report limit = Ok r ->
  md_type (pr_metadata r) = documented_type (report_groups sgn report).
Proof.
  intros sgn report limit r L E; rewrite (type_of_report _ _ _ _ E); generalize (report_groups sgn report); intros l.
  replace (Nat.max 1 limit) with (S (S (S (limit - 3)))) by lia.
  destruct l as [|a [|b [|c l]]]; reflexivity.
Qed.
Lemma unknown_type : forall sgn report limit r, parse sgn report limit = Ok r ->
  md_error (pr_metadata r) = RE_NONE -> md_type (pr_metadata r) = RT_UNKNOWN -> UntypedNil (report_groups sgn report).
Proof.
  intros sgn report limit r E N U; destruct (parse_counted _ _ _ _ E) as (rest & p & T & S & R & Ty & Er & _).
  rewrite N in Er; rewrite U in Ty; symmetry in Ty, Er.
  assert (Ep : isError (ps_status p) = false).
  { unfold isError; destruct (ps_status p) as [s t e]; destruct s; cbn in Er |- *; try discriminate Er; rewrite Er; reflexivity. }
  destruct R as [-> |X]; [|congruence].
  rewrite T, app_nil_r; destruct (ti_known _ _ _ (type_steps _ _ _ S) Ep Ty)
    as [[_ ->]|[(a & _ & _ & Sa & _)|[(a & b & _ & _ & _ & Sa & _)|(_ & _ & _ & H)]]]; [discriminate Er | | | exact H];
  unfold finalTransition in Er; rewrite Sa in Er; discriminate Er.
Qed.

(** ** What the header groups say *)
Lemma strncpy_all : forall s n, slen s = n -> (forall c, In c (list_ascii_of_string s) -> Ascii.eqb c chr0 = false) ->
  strncpy n s = s.
Proof.
  induction s as [|c s IH]; intros n L H; subst n; [reflexivity|]; cbn.
  rewrite (H c) by (left; reflexivity); rewrite IH; [reflexivity | reflexivity | intros d D; apply H; right; exact D].
Qed.
Lemma location_no_nul : forall s, fits location_form s = true ->
  forall c, In c (list_ascii_of_string s) -> Ascii.eqb c chr0 = false.
Proof.
  intros s F c I; destruct (Ascii.eqb c chr0) eqn:E; [|reflexivity]; apply Ascii.eqb_eq in E; subst c; exfalso.
  pose proof (fits_length _ _ F) as L; destruct s as [|a [|b [|d [|e [|]]]]]; try discriminate L.
  unfold location_form in F; cbn [fits] in F.
  apply andb_prop in F; destruct F as [F1 F]; apply andb_prop in F; destruct F as [F2 F]; apply andb_prop in F; destruct F as [F3 F].
  apply andb_prop in F; destruct F as [F4 _].
  cbn in I; destruct I as [-> |[-> |[-> |[-> |[]]]]]; discriminate.
Qed.
Lemma location_parse_iff : forall s part md l,
  LocationGroup_parse s part md = Ok (Some l)
  <-> (part = RP_HEADER /\ fits location_form s = true /\ LocationGroup_toString l = s).
Proof.
  intros s part md l; unfold LocationGroup_parse.
  destruct part; cbn [is_part ReportPart_beq negb]; try (split; [discriminate | intros [X _]; discriminate X]).
  rewrite location_match; destruct (fits location_form s) eqn:F; cbn [negb]; [|split; [discriminate | intros (_ & X & _); discriminate X]].
  rewrite strncpy_all; [|apply fits_length in F; exact F | apply location_no_nul, F].
  destruct l as [x]; cbn; split.
  - intros X; injection X as <-; auto.
  - intros (_ & _ & ->); reflexivity.
Qed.
Lemma location_dispatch : forall s part md l,
  GroupParser_parse s part md = Ok (GLocation l)
  <-> (part = RP_HEADER /\ fits location_form s = true /\ LocationGroup_toString l = s).
Proof.
  intros s part md l; split.
  - intros E; apply GroupParser_parse_inv in E; destruct E as [[E|E] _]; [discriminate E|].
    apply location_parse_iff in E; exact E.
  - intros (-> & F & <-); destruct (ok_elim _ _ _ (ok_GroupParser_parse (LocationGroup_toString l) RP_HEADER md)) as (g & E & _).
    pose proof (header_class_parse _ _ _ E) as C; rewrite (proj1 (form_class _) F) in C.
    rewrite E; apply GroupParser_parse_inv in E; destruct E as [[E|E] _]; [subst g; discriminate C|].
    destruct g; cbn in C; try discriminate C.
    + destruct g as [k]; destruct k; discriminate C.
    + cbn [parsed_as] in E; apply location_parse_iff in E; destruct E as (_ & _ & E); destruct g, l; cbn in E; subst; reflexivity.
    + match type of C with (if ?b then _ else _) = _ => destruct b; discriminate C | _ => idtac end.
Qed.
Lemma result_location : forall sgn report limit r i l, parse sgn report limit = Ok r ->
  In i (pr_groups r) -> gi_group i = GLocation l ->
  gi_reportPart i = RP_HEADER /\ fits location_form (gi_rawString i) = true /\ LocationGroup_toString l = gi_rawString i.
Proof.
  intros sgn report limit r i l E Hi G; destruct (result_active _ _ _ _ _ E Hi) as [[md P] _]; [rewrite G; reflexivity|].
  rewrite G in P; apply location_dispatch in P; exact P.
Qed.
Lemma result_report_time : forall sgn report limit r i t, parse sgn report limit = Ok r ->
  In i (pr_groups r) -> gi_group i = GReportTime t ->
  gi_reportPart i = RP_HEADER /\ fits report_time_form (gi_rawString i) = true
  /\ exists d h m, rt_t t = mkTime (Some d) h m
     /\ decimal (substring 0 2 (gi_rawString i)) = Some d /\ decimal (substring 2 2 (gi_rawString i)) = Some h
     /\ decimal (substring 4 2 (gi_rawString i)) = Some m.
Proof.
  intros sgn report limit r i t E Hi G; destruct (result_active _ _ _ _ _ E Hi) as [[md P] _]; [rewrite G; reflexivity|].
  rewrite G in P; apply GroupParser_parse_inv in P; destruct P as [[P|P] _]; [discriminate P|]; cbn [parsed_as] in P.
  assert (H : gi_reportPart i = RP_HEADER).
  { unfold ReportTimeGroup_parse in P; destruct (gi_reportPart i); try discriminate P; reflexivity. }
  rewrite H in P; split; [exact H|].
  destruct (header_report_time (gi_rawString i) md) as [[_ X]|(F & d & h & m & X & R)]; [congruence|].
  split; [exact F|]; rewrite X in P; injection P as <-; exists d, h, m; auto.
Qed.
Lemma result_header_span : forall sgn report limit r i t, parse sgn report limit = Ok r ->
  In i (pr_groups r) -> gi_group i = GTrend t -> Trend_isTimeSpanGroup t = true -> gi_reportPart i = RP_HEADER ->
  fits time_span_form (gi_rawString i) = true
  /\ exists d h d' h', tr_from t = Some (mkTime (Some d) h 0) /\ tr_till t = Some (mkTime (Some d') h' 0)
     /\ decimal (substring 0 2 (gi_rawString i)) = Some d /\ decimal (substring 2 2 (gi_rawString i)) = Some h
     /\ decimal (substring 5 2 (gi_rawString i)) = Some d' /\ decimal (substring 7 2 (gi_rawString i)) = Some h'.
Proof.
  intros sgn report limit r i t E Hi G T H; destruct (result_active _ _ _ _ _ E Hi) as [[md P] _]; [rewrite G; exact T|].
  rewrite G in P; apply GroupParser_parse_inv in P; destruct P as [[P|P] _]; [discriminate P|]; cbn [parsed_as] in P.
  rewrite H in P; destruct (header_time_span (gi_rawString i) md) as [[_ X]|(F & d & h & d' & h' & X & R)]; [congruence|].
  split; [exact F|]; rewrite X in P; injection P as <-; exists d, h, d', h'; auto.
Qed.

(** ** Forms used in the statements *)
Lemma nil_no_content : forall sgn report limit r, parse sgn report limit = Ok r ->
  md_error (pr_metadata r) = RE_NONE -> md_isNil (pr_metadata r) = true ->
  exists l i, pr_groups r = (l ++ [i])%list /\ gi_group i = GKeyword (mkKeyword Kw_NIL)
    /\ Forall (fun j => gi_reportPart j = RP_HEADER) l.
Proof.
  intros sgn report limit r E N H; apply (keyword_flags _ _ _ _ E Kw_NIL md_isNil) in H; [|cbn; auto 12].
  destruct (nil_or_cnl _ _ _ _ _ E N (or_introl eq_refl) H) as (l & i & A & B & C & _); eauto.
Qed.
Lemma cnl_no_content : forall sgn report limit r, parse sgn report limit = Ok r ->
  md_error (pr_metadata r) = RE_NONE -> md_isCancelled (pr_metadata r) = true ->
  exists l i, pr_groups r = (l ++ [i])%list /\ gi_group i = GKeyword (mkKeyword Kw_CNL)
    /\ Forall (fun j => gi_reportPart j = RP_HEADER) l
    /\ md_type (pr_metadata r) = RT_TAF
    /\ exists j t, In j l /\ gi_group j = GTrend t /\ Trend_isTimeSpanGroup t = true.
Proof.
  intros sgn report limit r E N H; apply (keyword_flags _ _ _ _ E Kw_CNL md_isCancelled) in H; [|cbn; auto 12].
  destruct (nil_or_cnl _ _ _ _ _ E N (or_intror eq_refl) H) as (l & i & A & B & C & D).
  destruct (D eq_refl) as [D1 D2]; exists l, i; auto.
Qed.
Lemma metar_span_refuted :
  ~ (forall (sgn : bool) (report : string) (groupLimit : nat) (r : ParseResult),
      parse sgn report groupLimit = Ok r ->
      md_error (pr_metadata r) = RE_NONE -> md_type (pr_metadata r) = RT_METAR ->
      md_timeSpanFrom (pr_metadata r) = None /\ md_timeSpanUntil (pr_metadata r) = None).
Proof.
  intros H; specialize (H true "METAR ZZZZ 010000Z 0100/0124" 100%nat).
  destruct (parse true "METAR ZZZZ 010000Z 0100/0124" 100) as [r|] eqn:E; [|vm_compute in E; discriminate E].
  assert (X : match parse true "METAR ZZZZ 010000Z 0100/0124" 100 with
    | Ok r => md_error (pr_metadata r) = RE_NONE /\ md_type (pr_metadata r) = RT_METAR /\ md_timeSpanFrom (pr_metadata r) <> None
    | Bad _ => True end) by (vm_compute; repeat split; discriminate).
  rewrite E in X; destruct X as (A & B & C); destruct (H r eq_refl A B) as [D _]; contradiction.
Qed.
