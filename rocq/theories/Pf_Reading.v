(** C56: a report read group by group, from the header to the end. *)
From Coq Require Import Lia.
From Verif Require Import Prim Lib Regex Float Values Weather Groups1 Groups2 Groups3 Groups4 Parser SpecTokens SpecReads SpecText SpecRegex SpecNumeral SpecTrend
  SpecReach SpecBuilt SpecAssembled SpecOpenings SpecSentence.
From Verif Require Import Pf_Tokens Pf_Ok Pf_Caps Pf_Regex Pf_Total Pf_Steps Pf_Kinds Pf_View Pf_Fresh Pf_Words Pf_Built Pf_Grown Pf_OneKind Pf_TimeOnly Pf_Sentence Pf_Header.
Local Open Scope string_scope.

Lemma item_words : forall part now ws next g, Item part now ws next g -> ws <> [].
Proof.
  assert (X : forall part now ws g, Assembled part now ws g -> ws <> []).
  { intros part now ws g A. destruct (assembled_split _ _ _ _ A) as (w & ws' & p & md & g0 & -> & _). discriminate. }
  intros part now ws next g H. destruct H as [ws next g g' A N R|w ws next v v' c Sh A Ac Sp R|w ws next v c Sh Nw A Ac Sp Sv|w next U|ws next g A N Sp]; try discriminate; exact (X _ _ _ _ A).
Qed.
Definition put_item (part : ReportPart) (l : list GroupInfo) (i : list string * Group) : list GroupInfo :=
  addGroupToResult l (snd i) part (String.concat " " (fst i)).
Lemma nothing_same : forall v w part md g', Group_append (GVicinity v) w part md = Ok (g', GROUP_INVALIDATED) -> g' = GVicinity v.
Proof.
  intros v w part md g' H. pose proof (append_index _ _ _ _ _ _ H) as E. destruct g'; try discriminate E. f_equal. apply appended_inv in H. cbn [appended_as] in H. clear E.
  unfold VicinityGroup_append in H.
  repeat match type of H with
    | (match ?x with _ => _ end) = _ => destruct x; try discriminate H
    | (bind ?x _) = _ => destruct x; cbn [bind] in H; try discriminate H
    end; injection H as <-; reflexivity.
Qed.
Lemma sentence_run : forall limit type part now next items, Sentence type part now next items -> Forall token (text_of items) ->
  forall n p l, at_point limit type part now n p -> (n + length (text_of items) < limit)%nat -> leaves part now (ps_groups p) (hd next (text_of items)) l ->
  exists q, step_all limit (text_of items) p = Ok q /\ at_point limit type part now (n + length (text_of items)) q /\ (begun (ps_status p) \/ items <> [] -> begun (ps_status q))
    /\ leaves part now (ps_groups q) next (fold_left (put_item part) items l).
Proof.
  intros limit type part now next items H; induction H as [|ws g items I Pl H IH|w items v c Sh Av Ac Sc Sv H IH]; intros Tk n p l B L Lv.
  - exists p. cbn [text_of map List.concat length step_all fold_left hd] in *. rewrite Nat.add_0_r. repeat (split; [assumption || reflexivity|]). split; [|exact Lv]. intros [X|X]; [exact X|congruence].
  - change (text_of ((ws, g) :: items)) with (ws ++ text_of items)%list in *. apply Forall_app in Tk. destruct Tk as [Tw Tk].
    rewrite app_length in *. pose proof (item_words _ _ _ _ _ I) as Nw.
    destruct (item_run limit type part now ws _ g I Pl Tw n p l B ltac:(lia)) as (q1 & E1 & B1 & F1 & L1); [destruct ws; [congruence|exact Lv]|].
    destruct (IH Tk (n + length ws)%nat q1 _ B1 ltac:(lia) L1) as (q & E2 & B2 & F2 & L2).
    exists q. rewrite (step_all_app _ _ _ _ _ E1), Nat.add_assoc. repeat (split; [assumption|]). split; [intros _; apply F2; left; exact F1|exact L2].
  - change (text_of (([], GVicinity v) :: ([w], GUnknown mkUnknown) :: items)) with (w :: text_of items) in *. cbn [length hd] in *. pose proof (Forall_inv_tail Tk) as Ti.
    destruct (nearby_run limit type part now w [] v c _ Sh Av Ac Sc n p l B ltac:(cbn [length]; lia) Lv) as (q1 & E1 & B1 & F1 & G1). cbn [length] in B1.
    destruct (IH Ti (n + 1)%nat q1 (fold_left (put_item part) [([], GVicinity v); ([w], GUnknown mkUnknown)] l) B1 ltac:(lia)) as (q & E2 & B2 & F2 & L2).
    { intros md T. rewrite (G1 md T). cbn [appendToLastResultGroup_noReparse gi_group gi_reportPart gi_rawString is_fallback]. destruct (Sv md T) as (g' & X). rewrite X. cbn [bind].
      unfold put_item. cbn [fold_left fst snd String.concat]. rewrite (add_known l (GVicinity v) part "" eq_refl). rewrite (nothing_same _ _ _ _ _ X). reflexivity. }
    exists q. change (w :: text_of items) with ([w] ++ text_of items)%list. rewrite (step_all_app _ _ _ _ _ E1). replace (n + S (length (text_of items)))%nat with (n + 1 + length (text_of items))%nat by lia.
    repeat (split; [assumption|]). split; [intros _; apply F2; left; exact F1|exact L2].
Qed.

(** ** Adjacent unknown groups *)
Definition both_unknown (a b : GroupInfo) : bool := is_fallback (gi_group a) && is_fallback (gi_group b).
Definition glue (a b : GroupInfo) : GroupInfo := mkGroupInfo (GUnknown mkUnknown) (gi_reportPart a) (gi_rawString a ++ " " ++ gi_rawString b).
Fixpoint put (l : list GroupInfo) (x : GroupInfo) : list GroupInfo :=
  match l with
  | [] => [x]
  | a :: l' => match l' with [] => if both_unknown a x then [glue a x] else [a; x] | _ => a :: put l' x end
  end.
Lemma merged_cons : forall a l, merged (a :: l) = match merged l with b :: rest => if both_unknown a b then glue a b :: rest else a :: b :: rest | [] => [a] end.
Proof.
  intros [g pt raw] l. cbn [merged gi_group]. unfold both_unknown, glue. cbn [gi_group gi_reportPart gi_rawString]. destruct (merged l) as [|[h ph rh] rest]; cbn [gi_group gi_reportPart gi_rawString].
  - destruct g; reflexivity.
  - destruct g; try reflexivity. destruct h as [| | | | | | | | | | | | | | | | | | | | |u]; try reflexivity. destruct u. reflexivity.
Qed.
Lemma glue_unknown : forall a b, is_fallback (gi_group (glue a b)) = true.
Proof. reflexivity. Qed.
Lemma glue_glue : forall a b c, glue a (glue b c) = glue (glue a b) c.
Proof. intros a b c. unfold glue. cbn [gi_group gi_reportPart gi_rawString]. f_equal. rewrite !app_assoc_str. reflexivity. Qed.
Lemma put_first : forall a b l x, put (a :: b :: l) x = a :: put (b :: l) x.
Proof. reflexivity. Qed.
Lemma merged_snoc : forall m x, merged (m ++ [x]) = put (merged m) x.
Proof.
  induction m as [|a m IH]; intros x.
  - cbn [app]. rewrite merged_cons. reflexivity.
  - cbn [app]. rewrite (merged_cons a (m ++ [x])), (merged_cons a m), IH. destruct (merged m) as [|b t]; [reflexivity|]. destruct t as [|c t].
    + cbn [put]. unfold both_unknown at 1. destruct (is_fallback (gi_group b)) eqn:Fb, (is_fallback (gi_group x)) eqn:Fx; cbn [andb].
      all: unfold both_unknown; rewrite ?glue_unknown, ?Fb, ?Fx; cbn [andb]; rewrite ?andb_false_r, ?andb_true_r; destruct (is_fallback (gi_group a)) eqn:Fa; cbn [put andb]; unfold both_unknown; rewrite ?glue_unknown, ?Fa, ?Fb, ?Fx; cbn [andb]; rewrite ?glue_glue; reflexivity.
    + rewrite put_first. destruct (both_unknown a b); reflexivity.
Qed.
Lemma put_last : forall m y x, put (m ++ [y]) x = (m ++ put [y] x)%list.
Proof.
  induction m as [|a m IH]; intros y x; [reflexivity|]. cbn [app]. destruct m as [|b m]; cbn [app]; [reflexivity|]. rewrite put_first. f_equal. exact (IH y x).
Qed.
Definition known_last (l : list GroupInfo) : Prop := match l with i :: _ => is_fallback (gi_group i) = false | [] => True end.
Lemma unknown_eta : forall g, is_fallback g = true -> g = GUnknown mkUnknown.
Proof. intros g F. destruct g as [| | | | | | | | | | | | | | | | | | | | |u]; try discriminate F. destruct u. reflexivity. Qed.
Lemma add_put : forall m l x, known_last l -> addGroupToResult (rev m ++ l) (gi_group x) (gi_reportPart x) (gi_rawString x) = (rev (put m x) ++ l)%list.
Proof.
  intros m l x K. destruct m as [|y m] using rev_ind.
  - cbn [rev app put]. destruct x as [g pt raw]. cbn [gi_group gi_reportPart gi_rawString]. destruct l as [|i l]; [reflexivity|]. cbn [addGroupToResult known_last] in *. rewrite K, andb_false_r. reflexivity.
  - clear IHm. rewrite put_last, !rev_app_distr, <- !app_assoc. cbn [rev app addGroupToResult]. cbn [put]. unfold both_unknown. rewrite andb_comm.
    destruct (is_fallback (gi_group y)) eqn:Fy, (is_fallback (gi_group x)) eqn:Fx; cbn [andb rev app]; destruct x as [g pt raw]; cbn [gi_group gi_reportPart gi_rawString]; try reflexivity.
    unfold glue. cbn [gi_group gi_reportPart gi_rawString]. rewrite (unknown_eta _ Fy). reflexivity.
Qed.
Lemma items_merged : forall part items l, known_last l -> fold_left (put_item part) items l = (rev (merged (map (shown_as part) items)) ++ l)%list.
Proof.
  intros part items l K. induction items as [|i items IH] using rev_ind; [reflexivity|].
  rewrite fold_left_app, map_app. cbn [fold_left map]. rewrite IH, merged_snoc. exact (add_put (merged (map (shown_as part) items)) l (shown_as part i) K).
Qed.

(** ** RMK *)
Definition texted (l : list GroupInfo) : Prop := match l with i :: _ => gi_rawString i <> "" | [] => False end.
Lemma token_text : forall ws, ws <> [] -> Forall token ws -> String.concat " " ws <> "".
Proof.
  intros [|w ws] N F; [congruence|]. inv F. destruct H1 as [X _]. destruct w as [|c w]; [congruence|]. cbn. destruct ws; discriminate.
Qed.
Lemma texted_add : forall l g part s, s <> "" -> texted l \/ l = [] -> texted (addGroupToResult l g part s).
Proof.
  intros l g part s N T. destruct l as [|i l]; cbn [addGroupToResult texted gi_rawString]; [exact N|]. destruct (_ && _); cbn [texted gi_rawString]; [|exact N].
  destruct T as [T|T]; [|discriminate T]. cbn [texted] in T. destruct (gi_rawString i); [congruence|discriminate].
Qed.
Lemma texted_items : forall type part now next items, Sentence type part now next items -> Forall token (text_of items) -> forall l, texted l -> texted (fold_left (put_item part) items l).
Proof.
  intros type part now next items H; induction H as [|ws g items I Pl H IH|w items v c Sh Av Ac Sc Sv H IH]; intros Tk l T; [exact T| |].
  2: { change (text_of (([], GVicinity v) :: ([w], GUnknown mkUnknown) :: items)) with (w :: text_of items) in Tk. cbn [fold_left]. apply IH; [exact (Forall_inv_tail Tk)|].
       unfold put_item at 2. cbn [fst snd String.concat]. rewrite (add_known l (GVicinity v) part "" eq_refl). unfold put_item. cbn [fst snd String.concat addGroupToResult gi_group is_fallback andb texted gi_rawString].
       exact (proj1 (Forall_inv Tk)). }
  change (text_of ((ws, g) :: items)) with (ws ++ text_of items)%list in Tk. apply Forall_app in Tk. destruct Tk as [Tw Tk]. cbn [fold_left]. apply IH; [exact Tk|].
  apply texted_add; [|left; exact T]. apply token_text; [exact (item_words _ _ _ _ _ I)|exact Tw].
Qed.
Lemma rmk_parsed : forall type md, type <> RT_UNKNOWN -> GroupParser_parse "RMK" (body_part type) md = Ok (keyword Kw_RMK).
Proof.
  intros type md N. eapply (first_parsed (alternative GKeyword KeywordGroup_parse) "RMK" (body_part type) md md); [cbn; tauto|destruct type; [congruence|reflexivity..]|reflexivity|].
  left. intros [X _]. destruct type; discriminate X.
Qed.
Lemma rmk_step : forall limit type now n p l, type <> RT_UNKNOWN -> at_point limit type (body_part type) now n p -> (S n < limit)%nat ->
  leaves (body_part type) now (ps_groups p) "RMK" l ->
  exists q, step_all limit ["RMK"] p = Ok q /\ at_point limit type RP_RMK now (S n) q /\ begun (ps_status q) /\ ps_groups q = mkGroupInfo (keyword Kw_RMK) (body_part type) "RMK" :: l.
Proof.
  intros limit type now n p l N [B T C] L Lv. cbn [step_all]. rewrite (body_no_error _ _ _ B). unfold parse_step. rewrite (body_part_of _ _ _ B), (Lv _ T). cbn [bind negb parse_group_loop].
  rewrite (body_part_of _ _ _ B), (rmk_parsed type _ N). cbn [bind]. unfold count_group. rewrite C. destruct (Nat.leb_spec limit (S n)) as [X|_]; [lia|].
  assert (X : in_body type RP_RMK (transition (ps_status p) SG_RMK) /\ begun (transition (ps_status p) SG_RMK) /\ isReparseRequired (transition (ps_status p) SG_RMK) = false).
  { unfold in_body, begun. remember (body_part type) as part. by_state B; try discriminate Heqpart; repeat split; reflexivity. }
  destruct X as (X1 & X2 & X3). change (getSyntaxGroup (keyword Kw_RMK)) with SG_RMK. rewrite X3. cbn [andb bind updateMetadata keyword].
  eexists. split; [reflexivity|]. cbn [ps_status ps_groups]. repeat split; cbn [ps_status ps_md ps_count]; try apply X1; try assumption. apply add_known. reflexivity.
Qed.
Lemma end_run : forall limit type part now n p l, at_point limit type part now n p -> begun (ps_status p) -> leaves part now (ps_groups p) "" l -> texted l ->
  exists r, parse_end p = Ok r /\ pr_groups r = rev l /\ md_type (pr_metadata r) = type /\ md_error (pr_metadata r) = RE_NONE /\ md_reportTime (pr_metadata r) = now.
Proof.
  intros limit type part now n p l [B T C] F Lv Tx. unfold parse_end. pose proof (Lv _ T) as Lp. rewrite (body_part_of _ _ _ B), Lp. destruct (ps_groups p) as [|i k]; [cbn in Lp; injection Lp as <-; destruct Tx|]. cbn [bind].
  destruct l as [|j l]; [destruct Tx|]. cbn [texted] in Tx. destruct (gi_rawString j) eqn:E; [congruence|]. cbn [sempty bind]. rewrite F. eexists. split; [reflexivity|].
  destruct B as (Be & Bt & _). cbn [pr_groups pr_metadata md_set_typeError md_type md_error md_reportTime]. auto.
Qed.
(** ** The whole report *)
Lemma read_from : forall limit type now n p1 body remarks, type <> RT_UNKNOWN -> at_point limit type (body_part type) now n p1 ->
  known_last (ps_groups p1) -> texted (ps_groups p1) -> (forall w, leaves (body_part type) now (ps_groups p1) w (ps_groups p1)) ->
  well_formed type now body remarks -> Forall token (text_of body ++ remark_words remarks) -> (n + length (text_of body ++ remark_words remarks) < limit)%nat ->
  exists r, (let! q := step_all limit (text_of body ++ remark_words remarks) p1 in parse_end q) = Ok r
    /\ read_as r type now (rev (ps_groups p1) ++ merged (map (shown_as (body_part type)) body) ++ remark_groups type remarks).
Proof.
  intros limit type now n p1 body remarks Nt B1 K1 X1 L1 [W R] Tk L. rewrite app_length in L. apply Forall_app in Tk. destruct Tk as [Tb Tr].
  destruct (sentence_run limit type (body_part type) now _ body W Tb n p1 (ps_groups p1) B1 ltac:(lia) (L1 _)) as (p2 & E2 & B2 & F2 & L2).
  rewrite (step_all_app _ _ _ _ _ E2).
  pose proof (texted_items _ _ _ _ _ W Tb _ X1) as X2. rewrite (items_merged _ _ _ K1) in L2, X2.
  destruct remarks as [items|]; cbn [remark_words remark_groups hd] in *.
  - cbn [length] in L. pose proof (Forall_inv_tail Tr) as Ti. destruct (rmk_step limit type now _ p2 _ Nt B2 ltac:(lia) L2) as (p3 & E3 & B3 & F3 & G3).
    change ("RMK" :: text_of items) with (["RMK"] ++ text_of items)%list. rewrite (step_all_app _ _ _ _ _ E3).
    assert (L3 : leaves RP_RMK now (ps_groups p3) (hd "" (text_of items)) (ps_groups p3)) by (intros md _; rewrite G3; reflexivity).
    destruct (sentence_run limit type RP_RMK now "" items R Ti _ p3 _ B3 ltac:(lia) L3) as (p4 & E4 & B4 & F4 & L4). rewrite E4. cbn [bind].
    assert (K3 : known_last (ps_groups p3)) by (rewrite G3; reflexivity). assert (X3 : texted (ps_groups p3)) by (rewrite G3; discriminate).
    pose proof (texted_items _ _ _ _ _ R Ti _ X3) as X4. rewrite (items_merged _ _ _ K3) in L4, X4.
    destruct (end_run limit type RP_RMK now _ p4 _ B4 (F4 (or_introl F3)) L4 X4) as (r & Er & Gr & Rest).
    exists r. split; [exact Er|]. split; [|exact Rest]. rewrite Gr, rev_app_distr, rev_involutive, G3. cbn [rev]. rewrite rev_app_distr, rev_involutive. rewrite <- !app_assoc. reflexivity.
  - cbn [step_all bind]. destruct (end_run limit type (body_part type) now _ p2 _ B2 (F2 (or_intror R)) L2 X2) as (r & Er & Gr & Rest).
    exists r. split; [exact Er|]. split; [|exact Rest]. rewrite Gr, rev_app_distr, rev_involutive, app_nil_r. reflexivity.
Qed.
(** The state after the header *)
Lemma header_run : forall limit l st now, Path Status_init None l st now -> l <> [] -> Forall token (map fst l) -> (length l < limit)%nat ->
  exists p, step_all limit (map fst l) ps_init = Ok p /\ ps_status p = st /\ md_reportTime (ps_md p) = now /\ ps_count p = length l
    /\ rev (ps_groups p) = header_groups l /\ known_last (ps_groups p) /\ texted (ps_groups p)
    /\ forall part w md, appendToLastResultGroup (ps_groups p) w part md = Ok (ps_groups p, false).
Proof.
  intros limit l st now P N Th L. destruct (exists_last N) as (l' & i & El).
  destruct (path_run limit _ _ _ _ _ P ps_init eq_refl eq_refl (Forall_nil _)) as (p1 & E1 & S1 & T1 & C1 & G1 & F1); [exact L|].
  cbn [ps_count ps_init ps_groups] in C1, G1. rewrite app_nil_r in G1. cbn [Nat.add] in C1.
  exists p1. repeat (split; [assumption|]). split; [rewrite G1, rev_involutive; reflexivity|].
  subst l. unfold header_groups in G1. rewrite map_app, rev_app_distr in G1. cbn [map rev app] in G1. rewrite G1 in F1 |- *. pose proof (Forall_inv F1) as [Ri Ai]. cbn [gi_group] in Ri, Ai.
  assert (K : is_fallback (snd i) = false) by (destruct (snd i); try discriminate Ai; reflexivity).
  split; [exact K|]. split; [|intros part w md; cbn [appendToLastResultGroup gi_group gi_reportPart gi_rawString]; rewrite K, (active_append _ w _ md Ri Ai); reflexivity].
  cbn [texted gi_rawString]. rewrite map_app in Th. apply Forall_app in Th. destruct Th as [_ Th]. exact (proj1 (Forall_inv Th)).
Qed.
Theorem read_typed : forall limit type now header body remarks, Header type now header -> well_formed type now body remarks ->
  Forall token (map fst header ++ text_of body ++ remark_words remarks) -> (length (map fst header ++ text_of body ++ remark_words remarks) < limit)%nat ->
  exists r, parse_groups limit (map fst header ++ text_of body ++ remark_words remarks) = Ok r
    /\ read_as r type now (header_groups header ++ merged (map (shown_as (body_part type)) body) ++ remark_groups type remarks).
Proof.
  intros limit type now header body remarks H W Tk L. rewrite app_length, map_length in L. apply Forall_app in Tk. destruct Tk as [Th Tk].
  assert (Nt : type <> RT_UNKNOWN) by (destruct H; discriminate). assert (Nh : header <> []) by (destruct H; discriminate).
  destruct (header_run limit header _ _ (header_path _ _ _ H) Nh Th ltac:(lia)) as (p1 & E1 & S1 & T1 & C1 & G1 & K1 & X1 & L1).
  assert (B1 : at_point limit type (body_part type) now (length header) p1).
  { split; [|exact T1|exact C1]. rewrite S1. destruct type; [congruence| |]; (split; [reflexivity|split; [reflexivity|left; reflexivity]]). }
  unfold parse_groups. rewrite (step_all_app _ _ _ _ _ E1), <- G1. exact (read_from limit type now _ p1 body remarks Nt B1 K1 X1 (fun w md _ => L1 _ w md) W Tk L).
Qed.
(** ** No METAR or SPECI at the beginning *)
Lemma span_words : forall w md g, GroupParser_parse w RP_HEADER md = Ok g -> getSyntaxGroup g = SG_TIME_SPAN -> matches "(\d\d\d\d)/(\d\d\d\d)" w.
Proof.
  intros w md g G E. destruct (GroupParser_parse_inv _ _ _ _ G) as [[->|P] _]; [discriminate E|]. destruct g; try discriminate E; [cbn in E; destruct (kw_t g); discriminate E|].
  cbn [parsed_as] in P. destruct (Pf_Type.header_time_span w md) as [[_ X]|(F & _)]; [rewrite X in P; discriminate P|].
  rewrite <- Pf_Type.time_span_match in F. apply is_match_lang in F. exact F.
Qed.
Lemma nil_words : forall w md g, GroupParser_parse w RP_HEADER md = Ok g -> getSyntaxGroup g = SG_NIL -> w = "NIL".
Proof.
  intros w md g G E. destruct (GroupParser_parse_inv _ _ _ _ G) as [[->|P] _]; [discriminate E|]. destruct g; try discriminate E; [|cbn in E; destruct (Trend_isTimeSpanGroup g); discriminate E].
  cbn [parsed_as] in P. unfold KeywordGroup_parse in P. cbn [is_part ReportPart_beq] in P. cbv zeta in P.
  repeat match type of P with (if ?b then _ else _) = _ => destruct b eqn:?; [injection P as <-; try discriminate E|] end.
  all: try discriminate P.
  match goal with H : _ = true |- _ => apply andb_true_iff in H; destruct H as [_ H]; exact (seqb_eq _ _ H) end.
Qed.
Lemma loop_once : forall k limit w md n st g, st_error st = RE_NONE -> st_type st = RT_METAR -> getReportPart st = RP_METAR -> GroupParser_parse w RP_METAR md = Ok g ->
  parse_group_loop (S k) limit w md n st = Ok (g, RP_METAR, S n, snd (count_group limit n (transition st (getSyntaxGroup g)))).
Proof.
  intros k limit w md n st g E T P G. cbn [parse_group_loop]. cbv zeta. rewrite P, G. cbn [bind]. unfold count_group.
  destruct (Nat.leb limit (S n)); cbn [snd].
  - rewrite andb_false_r. reflexivity.
  - destruct st as [[] t e]; try discriminate P; cbn [st_error st_type] in *; subst; destruct (getSyntaxGroup g); reflexivity.
Qed.
Lemma untyped_step : forall limit p p' w, ps_status p = mkStatus St_TIME_SPAN RT_UNKNOWN RE_NONE ->
  p' = mkParserState (header_status RT_METAR) (ps_md p) (ps_groups p) (S (ps_count p)) ->
  (forall part md, appendToLastResultGroup (ps_groups p) w part md = Ok (ps_groups p, false)) ->
  w <> "NIL" -> ~ matches "(\d\d\d\d)/(\d\d\d\d)" w -> (S (ps_count p) < limit)%nat ->
  parse_step limit w p = parse_step limit w p'.
Proof.
  intros limit p p' w Es -> A N M L. unfold parse_step. cbn [ps_status ps_md ps_groups ps_count]. rewrite !A. cbn [bind negb].
  destruct (first_of w RP_HEADER (ps_md p) alternatives (incl_refl _)) as (g & G & _). change (parseAlternatives alternatives w RP_HEADER (ps_md p)) with (GroupParser_parse w RP_HEADER (ps_md p)) in G.
  destruct (first_of w RP_METAR (ps_md p) alternatives (incl_refl _)) as (h & H & _). change (parseAlternatives alternatives w RP_METAR (ps_md p)) with (GroupParser_parse w RP_METAR (ps_md p)) in H.
  assert (T : transition (mkStatus St_TIME_SPAN RT_UNKNOWN RE_NONE) (getSyntaxGroup g) = mkStatus St_REPORT_BODY_BEGIN_METAR_REPEAT_PARSE RT_METAR RE_NONE).
  { destruct (getSyntaxGroup g) eqn:E; try reflexivity; [destruct (M (span_words _ _ _ G E))|destruct (N (nil_words _ _ _ G E))]. }
  rewrite (loop_once 2 limit w (ps_md p) (S (ps_count p)) (header_status RT_METAR) h eq_refl eq_refl eq_refl H).
  assert (X : parse_group_loop 3 limit w (ps_md p) (ps_count p) (ps_status p) = parse_group_loop 2 limit w (ps_md p) (S (ps_count p)) (mkStatus St_REPORT_BODY_BEGIN_METAR_REPEAT_PARSE RT_METAR RE_NONE)).
  { remember 2%nat as k. cbn [parse_group_loop]. cbv zeta. rewrite Es. change (getReportPart (mkStatus St_TIME_SPAN RT_UNKNOWN RE_NONE)) with RP_HEADER. rewrite G. cbn [bind]. rewrite T. unfold count_group.
    destruct (Nat.leb_spec limit (S (ps_count p))) as [Y|_]; [lia|]. reflexivity. }
  rewrite X, (loop_once 1 limit w (ps_md p) (S (ps_count p)) (mkStatus St_REPORT_BODY_BEGIN_METAR_REPEAT_PARSE RT_METAR RE_NONE) h eq_refl eq_refl eq_refl H).
  f_equal.
Qed.
Theorem read_untyped : forall limit loc time t body remarks, location loc -> issued time t -> well_formed RT_METAR (Some t) body remarks ->
  (forall w, hd_error (text_of body) = Some w -> w <> "NIL" /\ ~ matches "(\d\d\d\d)/(\d\d\d\d)" w) ->
  Forall token ([fst loc; fst time] ++ text_of body ++ remark_words remarks) -> (S (length ([fst loc; fst time] ++ text_of body ++ remark_words remarks)) < limit)%nat ->
  exists r, parse_groups limit ([fst loc; fst time] ++ text_of body ++ remark_words remarks) = Ok r
    /\ read_as r RT_METAR (Some t) (header_groups [loc; time] ++ merged (map (shown_as RP_METAR) body) ++ remark_groups RT_METAR remarks).
Proof.
  intros limit loc time t body remarks Lo Is W Hw Tk L. rewrite app_length in L. apply Forall_app in Tk. destruct Tk as [Th Tk].
  assert (P : Path Status_init None [loc; time] (mkStatus St_TIME_SPAN RT_UNKNOWN RE_NONE) (Some t)).
  { pose proof (item_location _ Lo) as Hl. pose proof (item_issued _ _ Is) as Ht. destruct loc as [lw lg], time as [tw tg]. destruct Lo as [_ El]. cbn [fst snd] in El. subst lg.
    destruct Is as (ts & _ & _ & Et). cbn [snd] in Et. subst tg. repeat (apply Path_word; [assumption|reflexivity|reflexivity|reflexivity|reach_state]); apply Path_end. }
  destruct (header_run limit [loc; time] _ _ P ltac:(discriminate) Th ltac:(cbn [length] in *; lia)) as (p1 & E1 & S1 & T1 & C1 & G1 & K1 & X1 & L1).
  set (p2 := mkParserState (header_status RT_METAR) (ps_md p1) (ps_groups p1) (S (ps_count p1))).
  assert (B2 : at_point limit RT_METAR RP_METAR (Some t) 3 p2).
  { split; [split; [reflexivity|split; [reflexivity|left; reflexivity]]|exact T1|]. cbn [p2 ps_count]. rewrite C1. reflexivity. }
  destruct (read_from limit RT_METAR (Some t) 3 p2 body remarks ltac:(discriminate) B2 K1 X1 (fun w md _ => L1 _ w md) W Tk ltac:(cbn [length] in *; lia)) as (r & Er & Rr).
  exists r. change (ps_groups p2) with (ps_groups p1) in Rr. rewrite G1 in Rr. split; [|exact Rr]. rewrite <- Er.
  unfold parse_groups. change [fst loc; fst time] with (map fst [loc; time]). rewrite (step_all_app _ _ _ _ _ E1). f_equal.
  assert (Nx : exists w ws, (text_of body ++ remark_words remarks)%list = w :: ws /\ w <> "NIL" /\ ~ matches "(\d\d\d\d)/(\d\d\d\d)" w).
  { destruct (text_of body) as [|w ws] eqn:Eb; [|exists w, (ws ++ remark_words remarks)%list; split; [reflexivity|exact (Hw w eq_refl)]].
    destruct remarks as [items|]; [exists "RMK", (text_of items); split; [reflexivity|split; [discriminate|]]|].
    - intros X. apply is_match_lang in X. vm_compute in X. discriminate X.
    - exfalso. destruct W as [Ws Nb]. destruct body as [|[ws g] body]; [congruence|]. inversion Ws as [|a b c I|]; subst; [|discriminate Eb]. change (text_of ((ws, g) :: body)) with (ws ++ text_of body)%list in Eb.
      destruct ws; [exact (item_words _ _ _ _ _ I eq_refl)|discriminate Eb]. }
  destruct Nx as (w & ws & -> & Nn & Nm). cbn [step_all]. rewrite S1. cbn [p2 ps_status]. change (isError (mkStatus St_TIME_SPAN RT_UNKNOWN RE_NONE)) with false. change (isError (header_status RT_METAR)) with false.
  rewrite (untyped_step limit p1 p2 w S1 eq_refl (fun part md => L1 part w md) Nn Nm); [reflexivity|]. rewrite C1. cbn [length] in *. lia.
Qed.
(** ** Reports *)
Theorem read_report : forall sgn report limit type now header body remarks,
  report_groups sgn report = (map fst header ++ text_of body ++ remark_words remarks)%list ->
  Header type now header -> well_formed type now body remarks -> (length (report_groups sgn report) < limit)%nat ->
  exists r, parse sgn report limit = Ok r
    /\ read_as r type now (header_groups header ++ merged (map (shown_as (body_part type)) body) ++ remark_groups type remarks).
Proof.
  intros sgn report limit type now header body remarks E H W L. rewrite parse_eq_parse_groups. pose proof (report_tokens sgn report) as Tk. rewrite E in *. apply read_typed; assumption.
Qed.
Theorem read_report_untyped : forall sgn report limit loc time t body remarks,
  report_groups sgn report = ([fst loc; fst time] ++ text_of body ++ remark_words remarks)%list ->
  location loc -> issued time t -> well_formed RT_METAR (Some t) body remarks ->
  (forall w, hd_error (text_of body) = Some w -> w <> "NIL" /\ ~ matches "(\d\d\d\d)/(\d\d\d\d)" w) ->
  (S (length (report_groups sgn report)) < limit)%nat ->
  exists r, parse sgn report limit = Ok r
    /\ read_as r RT_METAR (Some t) (header_groups [loc; time] ++ merged (map (shown_as RP_METAR) body) ++ remark_groups RT_METAR remarks).
Proof.
  intros sgn report limit loc time t body remarks E Lo Is W Hw L. rewrite parse_eq_parse_groups. pose proof (report_tokens sgn report) as Tk. rewrite E in *. apply read_untyped; assumption.
Qed.
Theorem read_one_way : forall sgn report type now header body remarks type' now' header' body' remarks',
  report_groups sgn report = (map fst header ++ text_of body ++ remark_words remarks)%list -> Header type now header -> well_formed type now body remarks ->
  report_groups sgn report = (map fst header' ++ text_of body' ++ remark_words remarks')%list -> Header type' now' header' -> well_formed type' now' body' remarks' ->
  type = type' /\ now = now'
  /\ (header_groups header ++ merged (map (shown_as (body_part type)) body) ++ remark_groups type remarks
      = header_groups header' ++ merged (map (shown_as (body_part type')) body') ++ remark_groups type' remarks')%list.
Proof.
  intros sgn report type now header body remarks type' now' header' body' remarks' E H W E' H' W'. pose proof (report_tokens sgn report) as Tk. set (words := report_groups sgn report) in *.
  destruct (read_typed (S (length words)) type now header body remarks H W) as (r & P & R1 & R2 & _ & R4); [rewrite <- E; exact Tk|rewrite <- E; lia|].
  destruct (read_typed (S (length words)) type' now' header' body' remarks' H' W') as (r' & P' & R1' & R2' & _ & R4'); [rewrite <- E'; exact Tk|rewrite <- E'; lia|].
  rewrite <- E in P. rewrite <- E' in P'. rewrite P in P'. injection P' as <-. repeat split; congruence.
Qed.
