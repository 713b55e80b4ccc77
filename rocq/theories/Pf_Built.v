(** Every group of the result is built from the words of its text. *)
From Coq Require Import Lia.
From Verif Require Import Prim Lib Regex Float Values Weather Groups1 Groups2 Groups3 Groups4 Parser SpecTokens SpecReads SpecText
  SpecReach SpecBuilt Pf_Tokens Pf_Ok Pf_Caps Pf_Regex Pf_Total Pf_Steps Pf_Kinds Pf_View Pf_Fresh Pf_Words Pf_EndAppend.
Local Open Scope string_scope.

Lemma reach_parsed : forall g s part md, parsed_as g s part md -> Reachable g.
Proof.
  assert (X : forall (A : Type) (mk : A -> Group) p s part md (k : A), In (alternative mk p) alternatives ->
    p s part md = Ok (Some k) -> Reachable (mk k)).
  { intros A mk p s part md k I E. eapply Reach_parse; [exact I|]. unfold alternative. rewrite E. reflexivity. }
  intros g s part md P; destruct g; cbn [parsed_as] in P; try contradiction; (eapply X; [|exact P]; cbn; tauto).
Qed.
Lemma words_from_start : forall text piece, piece <> "" -> exists x ws, words_from piece text = (piece ++ x) :: ws.
Proof.
  induction text as [|c text IH]; intros piece N; cbn [words_from].
  - exists "", []. rewrite app_empty_r. destruct piece; [congruence|reflexivity].
  - destruct (Ascii.eqb c " ").
    + exists "", (words_from "" text). rewrite app_empty_r. destruct piece; [congruence|reflexivity].
    + destruct (IH (piece ++ String c "")) as (x & ws & E); [destruct piece; discriminate|].
      exists (String c x), ws. rewrite E, app_assoc_s. reflexivity.
Qed.
Lemma built_reach : forall part ws g, Built part ws g -> Reachable g.
Proof.
  intros part ws g H; induction H as [w md g G|w md g g' B IH G|ws w md g g' B IH A|ws w part' md g g' B IH A|ws].
  - apply GroupParser_parse_inv in G. destruct G as [[-> |P] _]; [constructor|]. apply reach_parsed in P. exact P.
  - apply GroupParser_reparse_inv in G. destruct G as [-> |[P _]]; [constructor|]. apply reach_parsed in P. exact P.
  - eapply Reach_append; eassumption.
  - eapply Reach_append; eassumption.
  - constructor.
Qed.
(** The first word *)
Lemma built_head : forall part ws g, Built part ws g -> is_fallback g = false ->
  exists w ws' g0 md, ws = w :: ws' /\ parsed_as g0 w part md /\ Group_index g0 = Group_index g.
Proof.
  intros part ws g H; induction H as [w md g G|w md g g' B IH G|ws w md g g' B IH A|ws w part' md g g' B IH A|ws]; intros F.
  - apply GroupParser_parse_inv in G. destruct G as [[-> |P] _]; [discriminate|]. eexists _, _, _, _; eauto.
  - apply GroupParser_reparse_inv in G. destruct G as [-> |[P _]]; [discriminate|]. eexists _, _, _, _; eauto.
  - pose proof (append_index _ _ _ _ _ _ A) as I. destruct IH as (w0 & ws' & g0 & md0 & -> & P & J).
    { destruct g, g'; try reflexivity; discriminate. }
    exists w0, (ws' ++ [w])%list, g0, md0. rewrite I. auto.
  - pose proof (append_index _ _ _ _ _ _ A) as I. destruct IH as (w0 & ws' & g0 & md0 & -> & P & J).
    { destruct g, g'; try reflexivity; discriminate. }
    exists w0, ws', g0, md0. rewrite I. auto.
  - discriminate.
Qed.
Lemma never_broken : forall g s part md g', Group_append g s part md = Ok (g', GROUP_INVALIDATED) -> Group_index g <> 16.
Proof.
  intros g s part md g' A. apply appended_inv in A. destruct g, g'; try contradiction; cbn [Group_index]; try lia.
  cbn [appended_as] in A. unfold CloudTypesGroup_append in A. cbv zeta in A.
  repeat match type of A with
  | (if ?b then _ else _) = Ok _ => destruct b; try discriminate
  | (match ?b with _ => _ end) = Ok _ => destruct b; try discriminate
  | bind _ _ = Ok _ => let x := fresh "x" in apply bind_ok in A; destruct A as (x & _ & A); try discriminate
  end.
Qed.
(** A text of several words is not recognised as a whole. *)
Lemma reparse_spaced : forall part s g md g' x w' p', Built part (words_of s) g -> spaced s -> is_fallback g = false ->
  Group_append g w' p' md = Ok (x, GROUP_INVALIDATED) ->
  GroupParser_reparse s part md x = Ok g' -> g' = GUnknown mkUnknown.
Proof.
  intros part s g md g' x w' p' B S F A R. apply GroupParser_reparse_inv in R. destruct R as [R|[P N]]; [exact R|exfalso].
  pose proof (append_index _ _ _ _ _ _ A) as I. rewrite I in N.
  destruct (Nat.eq_dec (Group_index g') 18) as [E|E].
  - destruct g'; try discriminate E. cbn [parsed_as] in P.
    destruct (parsed_lightning _ _ _ _ P S) as [-> L].
    destruct (built_head _ _ _ B F) as (w & ws & h0 & md0 & Ew & P0 & J).
    assert (Lw : ltg w).
    { clear -Ew L. destruct L as (t & ->). unfold words_of in Ew. cbn in Ew.
      destruct (words_from_start t "LTG") as (x & ws' & E); [discriminate|]. rewrite E in Ew. injection Ew as <- _. exists x. reflexivity. }
    destruct (passive_invalidated _ _ _ _ _ (built_reach _ _ _ B) A) as (_ & Ix & _).
    eapply parsed_ltg; [exact P0|rewrite J; exact Ix|rewrite J; exact (never_broken _ _ _ _ _ A)|rewrite J; cbn in N; congruence|exact Lw].
  - exact (spaced_plain _ S (parsed_plain _ _ _ _ P E)).
Qed.

(** ** The groups while the report is parsed *)
Definition good (i : GroupInfo) : Prop :=
  gi_rawString i = "" \/ Built (gi_reportPart i) (words_of (gi_rawString i)) (gi_group i).
Definition head_text (l : list GroupInfo) : Prop := match l with i :: _ => gi_rawString i <> "" | [] => True end.
Lemma plain_words : forall s, plain s -> s <> "" -> words_of s = [s].
Proof.
  intros s P N. apply words_token. split; [exact N|]. clear N. unfold plain in P.
  induction s as [|c s IH]; cbn [all_chars str_all] in *; [exact I|]. apply andb_prop in P. destruct P as [A B].
  split; [|exact (IH B)]. unfold not_space in A. destruct (Ascii.eqb_spec c " "); [discriminate|assumption].
Qed.
Lemma app_not_empty : forall a c b, a ++ String c b <> "".
Proof. intros [|x a] c b; discriminate. Qed.
Lemma good_add : forall l g part s, Forall good l -> Built part (words_of s) g -> s <> "" ->
  Forall good (addGroupToResult l g part s) /\ head_text (addGroupToResult l g part s).
Proof.
  intros l g part s G B N. destruct l as [|i l]; cbn [addGroupToResult].
  - split; [constructor; [right; exact B|constructor]|exact N].
  - destruct (is_fallback g && is_fallback (gi_group i)) eqn:F; [|split; [constructor; [right; exact B|exact G]|exact N]].
    apply andb_prop in F. destruct F as [_ F]. inv G. split; [constructor; [|assumption]|].
    + right. cbn [gi_group gi_reportPart gi_rawString]. destruct (gi_group i) as [| | | | | | | | | | | | | | | | | | | | |u]; try discriminate F. destruct u. apply Built_unknown.
    + cbn. apply app_not_empty.
Qed.
Definition word (s : string) : Prop := s = "" \/ token s.
Lemma append_word : forall i s part md g', good i -> gi_rawString i <> "" -> is_fallback (gi_group i) = false -> word s ->
  (s <> "" -> part = gi_reportPart i \/ active (gi_group i) = true) ->
  Group_append (gi_group i) s part md = Ok (g', APPENDED) ->
  good (mkGroupInfo g' (gi_reportPart i) (gi_rawString i ++ String " " s)).
Proof.
  intros i s part md g' [G|G] N F Wd Hp A; [contradiction|]. right. cbn [gi_group gi_reportPart gi_rawString].
  destruct Wd as [-> |T]; [destruct (end_append _ _ _ _ F A)|].
  rewrite words_app, (words_token _ T).
  destruct (Hp (proj1 T)) as [-> |Hq]; [eapply Built_more; eassumption|].
  rewrite (active_append _ _ _ _ (built_reach _ _ _ G) Hq) in A. discriminate.
Qed.
Lemma refuse_word : forall i s part md g', good i -> Group_append (gi_group i) s part md = Ok (g', NOT_APPENDED) ->
  good (mkGroupInfo g' (gi_reportPart i) (gi_rawString i)).
Proof. intros i s part md g' [G|G] A; [left; exact G|right; eapply Built_refused; [exact G|exact A]]. Qed.
Lemma good_noReparse : forall i l s part md l' b, Forall good (i :: l) -> gi_rawString i <> "" -> word s ->
  (s <> "" -> part = gi_reportPart i \/ active (gi_group i) = true) ->
  appendToLastResultGroup_noReparse (i :: l) s part md = Ok (l', b) -> Forall good l' /\ head_text l'.
Proof.
  intros i l s part md l' b G N Wd Hp E. cbn [appendToLastResultGroup_noReparse] in E. inv G.
  destruct (is_fallback (gi_group i)) eqn:F; [injection E as <- <-; split; [constructor; assumption|exact N]|].
  apply bind_ok in E. destruct E as ([g' a] & A & E). destruct a; apply ok_pair_inj in E; destruct E as [-> ->].
  - split; [constructor; [eapply append_word; eassumption|assumption]|cbn; apply app_not_empty].
  - split; [constructor; [eapply refuse_word; eassumption|assumption]|exact N].
  - apply good_add; [constructor; [left; reflexivity|assumption]|apply Built_unknown|exact N].
Qed.
Lemma reparse_index : forall s part md a b, Group_index a = Group_index b -> GroupParser_reparse s part md a = GroupParser_reparse s part md b.
Proof. intros s part md a b E. rewrite !GroupParser_reparse_eq, E. reflexivity. Qed.
Lemma good_append : forall i l s part md l' b, Forall good (i :: l) -> gi_rawString i <> "" -> word s ->
  (s <> "" -> part = gi_reportPart i \/ active (gi_group i) = true) ->
  appendToLastResultGroup (i :: l) s part md = Ok (l', b) -> Forall good l' /\ head_text l'.
Proof.
  intros i l s part md l' b G N Wd Hp E. cbn [appendToLastResultGroup] in E. inv G.
  destruct (is_fallback (gi_group i)) eqn:F; [injection E as <- <-; split; [constructor; assumption|exact N]|].
  apply bind_ok in E. destruct E as ([g' a] & A & E). destruct a.
  - apply ok_pair_inj in E; destruct E as [-> ->].
    split; [constructor; [eapply append_word; eassumption|assumption]|cbn; apply app_not_empty].
  - apply ok_pair_inj in E; destruct E as [-> ->].
    split; [constructor; [eapply refuse_word; eassumption|assumption]|exact N].
  - apply bind_ok in E. destruct E as (r & R & E). cbv zeta in E.
    destruct H1 as [X|B]; [contradiction|].
    assert (Br : Built (gi_reportPart i) (words_of (gi_rawString i)) r).
    { destruct (plain_or_spaced (gi_rawString i)) as [P|P].
      - rewrite (plain_words _ P N) in *. eapply Built_again; [exact B|].
        rewrite (reparse_index _ _ _ (gi_group i) g'); [exact R|symmetry; exact (append_index _ _ _ _ _ _ A)].
      - rewrite (reparse_spaced _ _ _ _ _ _ _ _ B P F A R). apply Built_unknown. }
    destruct (good_add l r (gi_reportPart i) (gi_rawString i) H2 Br N) as [G2 T2].
    destruct (is_fallback r) eqn:Fr.
    + apply ok_pair_inj in E; destruct E as [-> ->]. auto.
    + assert (Ea : addGroupToResult l r (gi_reportPart i) (gi_rawString i) = mkGroupInfo r (gi_reportPart i) (gi_rawString i) :: l).
      { destruct l; cbn [addGroupToResult]; rewrite ?Fr; reflexivity. }
      rewrite Ea in *. eapply good_noReparse; [exact G2|exact N|exact Wd| |exact E]. cbn [gi_reportPart gi_group].
      intros Ns. destruct (Hp Ns) as [Hq|Hq]; [auto|]. rewrite (active_append _ _ _ _ (built_reach _ _ _ B) Hq) in A. discriminate.
Qed.
Lemma part_of_last : forall p i l, Inv p -> isError (ps_status p) = false -> ps_groups p = i :: l ->
  getReportPart (ps_status p) = gi_reportPart i \/ active (gi_group i) = true.
Proof.
  intros p i l I Er E. destruct (active (gi_group i)) eqn:A; [auto|left].
  pose proof (inv_head p I Er) as H. rewrite E, V_cons in H. unfold view, av in H. rewrite A in H.
  destruct (push_head (gi_reportPart i, None) (V l)) as (v' & Ev). rewrite Ev in H. cbn in H. symmetry. apply H.
Qed.
Lemma good_steps : forall limit used p, Steps limit used p -> Forall token used -> Forall good (ps_groups p) /\ head_text (ps_groups p).
Proof.
  intros limit. refine (steps_induction limit (fun used p => Forall token used -> Forall good (ps_groups p) /\ head_text (ps_groups p)) _ _).
  - intros _. split; [constructor|exact I].
  - intros used p s q S I Er E St Iq IH F. apply Forall_app in F. destruct F as [F1 F2]. inv F2.
    destruct (IH F1) as [G T]. unfold parse_step in E. cbv zeta in E.
    apply bind_ok in E. destruct E as ([l b] & A & E).
    assert (GT : Forall good l /\ head_text l).
    { destruct (ps_groups p) as [|i l0] eqn:Eg.
      - cbn in A. injection A as <- _. auto.
      - refine (good_append i l0 s _ _ l b G T (or_intror H1) _ A). intros _. exact (part_of_last p i l0 I Er Eg). }
    destruct b; cbn [negb] in E.
    + destruct (count_group _ _ _) as [n st]; injection E as <-. exact GT.
    + apply bind_ok in E; destruct E as ([[[g part] n] st] & L & E).
      apply bind_ok in E; destruct E as (md & _ & E); injection E as <-; cbn [ps_groups].
      apply loop_fresh in L; [|apply I | exact Er]; destruct L as (st0 & n0 & Fr & _).
      apply good_add; [apply GT| |apply H1].
      rewrite (words_token s H1). destruct Fr as [g Gp _|g0 g _ _ _ _ _ _ Gp]; eapply Built_first; exact Gp.
Qed.
Lemma result_built : forall sgn report limit r, parse sgn report limit = Ok r ->
  forall i, In i (pr_groups r) -> gi_rawString i = "" \/ Built (gi_reportPart i) (words_of (gi_rawString i)) (gi_group i).
Proof.
  intros sgn report limit r E i Hi; destruct (parse_inv _ _ _ _ E) as (used & rest & p & T & S & R & Ee & F).
  destruct (good_steps _ _ _ S F) as [G Tx].
  apply parse_end_inv in Ee. destruct Ee as (l & Gr & _ & C). rewrite Gr in Hi. apply in_rev in Hi.
  destruct C as [[_ ->]|(l' & b & N & A & j & l0 & -> & ->)]; [contradiction|].
  destruct (ps_groups p) as [|k l1] eqn:Eg; [congruence|].
  apply good_append in A; [|exact G|exact Tx|left; reflexivity|congruence]. destruct A as [A _].
  rewrite Forall_forall in A. apply A. destruct (sempty (gi_rawString j)); [right|]; exact Hi.
Qed.
Theorem built_from_words : forall sgn report limit r, parse sgn report limit = Ok r ->
  forall g part raw, In (mkGroupInfo g part raw) (pr_groups r) -> raw <> "" -> Built part (words_of raw) g.
Proof. intros sgn report limit r E g part raw Hi N. destruct (result_built _ _ _ _ E _ Hi) as [X|B]; [contradiction|exact B]. Qed.
