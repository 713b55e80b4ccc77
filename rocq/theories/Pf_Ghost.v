(** A group without text is a cloud group or a vicinity group: only these are looked at again and then given up. *)
From Coq Require Import Lia.
From Verif Require Import Prim Lib Regex Float Values Weather Groups1 Groups2 Groups3 Groups4 Parser SpecTokens SpecReads SpecText
  SpecReach SpecBuilt SpecOpenings Pf_Tokens Pf_Ok Pf_Caps Pf_Regex Pf_Total Pf_Steps Pf_Kinds Pf_View Pf_Fresh Pf_Words Pf_EndAppend
  Pf_Built Pf_Openings Pf_OpeningWords Pf_OneKind.
Local Open Scope string_scope.

Definition two_kind (g : Group) : Prop := (exists c, g = GCloud c) \/ (exists v, g = GVicinity v).
Lemma two_index : forall g, Group_index g = 6 \/ Group_index g = 19 -> two_kind g.
Proof. intros [] [H|H]; try discriminate H; [left|right]; eauto. Qed.
Lemma again_kind : forall part w md g r, Built part [w] g -> is_fallback g = false ->
  GroupParser_reparse w part md g = Ok r -> is_fallback r = false -> Group_index r = 6 \/ Group_index r = 19.
Proof.
  intros part w md g r B F R Fr. destruct (built_head _ _ _ B F) as (w0 & ws & g0 & md0 & E & P & X). injection E as <- <-.
  rewrite GroupParser_reparse_eq in R.
  destruct (next_of w part md (Group_index g) alternatives 0 (incl_refl _)) as (h & E & C). rewrite E in R. injection R as <-.
  destruct C as [(j & p & Np & J & Q)|[-> _]]; [|discriminate Fr].
  pose proof (index_of_alternative _ _ _ _ _ _ Np Q) as Xj. apply nth_error_In in Np. apply parsed_inv in Q; [|exact Np].
  pose proof (index_bound _ _ _ _ P) as B1. pose proof (index_bound _ _ _ _ Q) as B2.
  pose proof (opens _ _ _ _ P) as O1. pose proof (opens _ _ _ _ Q) as O2.
  destruct (lt_eq_lt_dec (Group_index g0) (Group_index h)) as [[L|L]|L].
  - destruct (apart_below part _ _ w (conj L B2) O1 O2) as (_ & _ & K). auto.
  - cbn in J. lia.
  - destruct (apart_below part _ _ w (conj L B1) O2 O1) as (_ & K & _). auto.
Qed.

Definition good2 (i : GroupInfo) : Prop :=
  gi_rawString i = "" /\ Reachable (gi_group i) /\ two_kind (gi_group i)
  \/ gi_rawString i <> "" /\ Built (gi_reportPart i) (words_of (gi_rawString i)) (gi_group i).
Lemma good2_good : forall i, good2 i -> good i.
Proof. intros i [[H _]|[_ H]]; [left|right]; exact H. Qed.
Lemma good2_add : forall l g part s, Forall good2 l -> Built part (words_of s) g -> s <> "" ->
  Forall good2 (addGroupToResult l g part s) /\ head_text (addGroupToResult l g part s).
Proof.
  intros l g part s G B N. destruct l as [|i l]; cbn [addGroupToResult].
  - split; [constructor; [right; split; [exact N|exact B]|constructor]|exact N].
  - destruct (is_fallback g && is_fallback (gi_group i)) eqn:F; [|split; [constructor; [right; split; [exact N|exact B]|exact G]|exact N]].
    apply andb_prop in F. destruct F as [_ F]. inv G. split; [constructor; [|assumption]|].
    + right. cbn [gi_group gi_reportPart gi_rawString]. split; [apply app_not_empty|]. destruct (gi_group i) as [| | | | | | | | | | | | | | | | | | | | |u]; try discriminate F. destruct u. apply Built_unknown.
    + cbn. apply app_not_empty.
Qed.
Lemma append_word2 : forall i s part md g', good2 i -> gi_rawString i <> "" -> is_fallback (gi_group i) = false -> word s ->
  (s <> "" -> part = gi_reportPart i \/ active (gi_group i) = true) ->
  Group_append (gi_group i) s part md = Ok (g', APPENDED) ->
  good2 (mkGroupInfo g' (gi_reportPart i) (gi_rawString i ++ String " " s)).
Proof.
  intros i s part md g' G N F Wd Hp A. destruct (append_word i s part md g' (good2_good _ G) N F Wd Hp A) as [X|X]; [|right; split; [apply app_not_empty|exact X]].
  cbn [gi_rawString] in X. destruct (app_not_empty _ _ _ X).
Qed.
Lemma refuse_word2 : forall i s part md g', good2 i -> gi_rawString i <> "" -> Group_append (gi_group i) s part md = Ok (g', NOT_APPENDED) ->
  good2 (mkGroupInfo g' (gi_reportPart i) (gi_rawString i)).
Proof.
  intros i s part md g' G N A. destruct (refuse_word i s part md g' (good2_good _ G) A) as [X|X]; [contradiction|right; split; [exact N|exact X]].
Qed.
Lemma good2_noReparse : forall i l s part md l' b, Forall good2 (i :: l) -> gi_rawString i <> "" -> word s ->
  Group_index (gi_group i) = 6 \/ Group_index (gi_group i) = 19 ->
  (s <> "" -> part = gi_reportPart i \/ active (gi_group i) = true) ->
  appendToLastResultGroup_noReparse (i :: l) s part md = Ok (l', b) -> Forall good2 l' /\ head_text l'.
Proof.
  intros i l s part md l' b G N Wd K Hp E. cbn [appendToLastResultGroup_noReparse] in E. inv G.
  destruct (is_fallback (gi_group i)) eqn:F; [injection E as <- <-; split; [constructor; assumption|exact N]|].
  apply bind_ok in E. destruct E as ([g' a] & A & E). destruct a; apply ok_pair_inj in E; destruct E as [-> ->].
  - split; [constructor; [eapply append_word2; eassumption|assumption]|cbn; apply app_not_empty].
  - split; [constructor; [eapply refuse_word2; eassumption|assumption]|exact N].
  - apply good2_add; [constructor; [left|assumption]|apply Built_unknown|exact N]. cbn [gi_rawString gi_group].
    destruct H1 as [[X _]|[_ B]]; [contradiction|]. split; [reflexivity|]. split.
    + eapply Reach_append; [exact (built_reach _ _ _ B)|exact A].
    + apply two_index. rewrite (append_index _ _ _ _ _ _ A). exact K.
Qed.
Lemma good2_append : forall i l s part md l' b, Forall good2 (i :: l) -> gi_rawString i <> "" -> word s ->
  (s <> "" -> part = gi_reportPart i \/ active (gi_group i) = true) ->
  appendToLastResultGroup (i :: l) s part md = Ok (l', b) -> Forall good2 l' /\ head_text l'.
Proof.
  intros i l s part md l' b G N Wd Hp E. cbn [appendToLastResultGroup] in E. inv G.
  destruct (is_fallback (gi_group i)) eqn:F; [injection E as <- <-; split; [constructor; assumption|exact N]|].
  apply bind_ok in E. destruct E as ([g' a] & A & E). destruct a.
  - apply ok_pair_inj in E; destruct E as [-> ->].
    split; [constructor; [eapply append_word2; eassumption|assumption]|cbn; apply app_not_empty].
  - apply ok_pair_inj in E; destruct E as [-> ->].
    split; [constructor; [eapply refuse_word2; eassumption|assumption]|exact N].
  - apply bind_ok in E. destruct E as (r & R & E). cbv zeta in E.
    destruct H1 as [[X _]|[_ B]]; [contradiction|].
    assert (Br : Built (gi_reportPart i) (words_of (gi_rawString i)) r /\ (is_fallback r = false -> Group_index r = 6 \/ Group_index r = 19)).
    { destruct (plain_or_spaced (gi_rawString i)) as [P|P].
      - rewrite (plain_words _ P N) in *.
        assert (R' : GroupParser_reparse (gi_rawString i) (gi_reportPart i) md (gi_group i) = Ok r)
          by (rewrite (reparse_index _ _ _ (gi_group i) g'); [exact R|symmetry; exact (append_index _ _ _ _ _ _ A)]).
        split; [eapply Built_again; [exact B|exact R']|exact (again_kind _ _ _ _ _ B F R')].
      - rewrite (reparse_spaced _ _ _ _ _ _ _ _ B P F A R). split; [apply Built_unknown|discriminate]. }
    destruct Br as [Br K].
    destruct (good2_add l r (gi_reportPart i) (gi_rawString i) H2 Br N) as [G2 T2].
    destruct (is_fallback r) eqn:Fr.
    + apply ok_pair_inj in E; destruct E as [-> ->]. auto.
    + assert (Ea : addGroupToResult l r (gi_reportPart i) (gi_rawString i) = mkGroupInfo r (gi_reportPart i) (gi_rawString i) :: l).
      { destruct l; cbn [addGroupToResult]; rewrite ?Fr; reflexivity. }
      rewrite Ea in *. eapply good2_noReparse; [exact G2|exact N|exact Wd|exact (K eq_refl)| |exact E]. cbn [gi_reportPart gi_group].
      intros Ns. destruct (Hp Ns) as [Hq|Hq]; [auto|]. rewrite (active_append _ _ _ _ (built_reach _ _ _ B) Hq) in A. discriminate.
Qed.
Lemma good2_steps : forall limit used p, Steps limit used p -> Forall token used -> Forall good2 (ps_groups p) /\ head_text (ps_groups p).
Proof.
  intros limit. refine (steps_induction limit (fun used p => Forall token used -> Forall good2 (ps_groups p) /\ head_text (ps_groups p)) _ _).
  - intros _. split; [constructor|exact I].
  - intros used p s q S I Er E St Iq IH F. apply Forall_app in F. destruct F as [F1 F2]. inv F2.
    destruct (IH F1) as [G T]. unfold parse_step in E. cbv zeta in E.
    apply bind_ok in E. destruct E as ([l b] & A & E).
    assert (GT : Forall good2 l /\ head_text l).
    { destruct (ps_groups p) as [|i l0] eqn:Eg.
      - cbn in A. injection A as <- _. auto.
      - refine (good2_append i l0 s _ _ l b G T (or_intror H1) _ A). intros _. exact (part_of_last p i l0 I Er Eg). }
    destruct b; cbn [negb] in E.
    + destruct (count_group _ _ _) as [n st]; injection E as <-. exact GT.
    + apply bind_ok in E; destruct E as ([[[g part] n] st] & L & E).
      apply bind_ok in E; destruct E as (md & _ & E); injection E as <-; cbn [ps_groups].
      apply loop_fresh in L; [|apply I | exact Er]; destruct L as (st0 & n0 & Fr & _).
      apply good2_add; [apply GT| |apply H1].
      rewrite (words_token s H1). destruct Fr as [g Gp _|g0 g _ _ _ _ _ _ Gp]; eapply Built_first; exact Gp.
Qed.
Lemma result_good2 : forall sgn report limit r, parse sgn report limit = Ok r -> forall i, In i (pr_groups r) -> good2 i.
Proof.
  intros sgn report limit r E i Hi; destruct (parse_inv _ _ _ _ E) as (used & rest & p & T & S & R & Ee & F).
  destruct (good2_steps _ _ _ S F) as [G Tx].
  apply parse_end_inv in Ee. destruct Ee as (l & Gr & _ & C). rewrite Gr in Hi. apply in_rev in Hi.
  destruct C as [[_ ->]|(l' & b & N & A & j & l0 & -> & ->)]; [contradiction|].
  destruct (ps_groups p) as [|k l1] eqn:Eg; [congruence|].
  apply good2_append in A; [|exact G|exact Tx|left; reflexivity|congruence]. destruct A as [A _].
  rewrite Forall_forall in A. apply A. destruct (sempty (gi_rawString j)); [right|]; exact Hi.
Qed.
Theorem ghost_kinds : forall sgn report limit r, parse sgn report limit = Ok r ->
  forall g part, In (mkGroupInfo g part "") (pr_groups r) -> (exists c, g = GCloud c) \/ (exists v, g = GVicinity v).
Proof.
  intros sgn report limit r E g part Hi. destruct (result_good2 _ _ _ _ E _ Hi) as [(_ & _ & K)|[N _]]; [exact K|].
  destruct (N eq_refl).
Qed.
