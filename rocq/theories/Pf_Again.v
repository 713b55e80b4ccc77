(** Reading the texts of a result once more (C74), and reading a report with more words (C75). *)
From Coq Require Import Lia.
From Verif Require Import Prim Regex Float Values Weather Groups1 Groups2 Groups3 Groups4 Parser Lib
  SpecTokens SpecReads Pf_Tokens SpecText SpecAgain Pf_Ok SpecReach Pf_Total Pf_Steps Pf_Shape Pf_EndAppend.
Local Open Scope string_scope.

(** ** Texts made of groups *)
Lemma words_from_first : forall text piece, piece <> "" ->
  exists w l, words_from piece text = (piece ++ w) :: l.
Proof.
  induction text as [|c t IH]; intros piece N; cbn [words_from].
  - exists "", []; rewrite app_nil_str; destruct piece; [congruence|reflexivity].
  - destruct (Ascii.eqb c " ").
    + exists "", (words_from "" t); rewrite app_nil_str; destruct piece; [congruence|reflexivity].
    + destruct (IH (piece ++ String c "")) as (w & l & E); [destruct piece; discriminate|].
      exists (String c w), l; rewrite E, app_assoc_s; reflexivity.
Qed.
Lemma all_chars_in : forall P a c b, all_chars P (a ++ String c b) -> P c.
Proof. intros P; induction a as [|x a IH]; intros c b [H1 H2]; [exact H1|exact (IH _ _ H2)]. Qed.

(** A character of a group, and what comes after a '+' in it *)
Lemma group_char : forall sgn a c b, group_text sgn (a ++ String c b) ->
  delimiter sgn c = false /\ c <> "="%char /\ (c = "+"%char -> a <> "" -> b = "").
Proof.
  intros sgn a c b (f & m & l & E & Hl & Hf & He & Hm).
  destruct a as [|x a]; cbn [append] in E.
  - injection E as -> ->; repeat split; auto; congruence.
  - injection E as -> E.
    assert (Q : (exists m2, m = a ++ String c m2 /\ b = m2 ++ l) \/ (a = m /\ String c b = l) \/ (exists l1, l1 <> "" /\ a = m ++ l1)).
    { clear -E; revert m E; induction a as [|y a IH]; intros [|z m] E; cbn [append] in E.
      - right; left; auto.
      - injection E as -> ->; left; exists m; auto.
      - right; right; exists (String y a); split; [discriminate|reflexivity].
      - injection E as -> E; destruct (IH _ E) as [(m2 & -> & ->)|[(-> & <-)|(l1 & N & ->)]].
        + left; exists m2; auto.
        + right; left; auto.
        + right; right; exists l1; auto. }
    destruct Q as [(m2 & -> & ->)|[(-> & <-)|(l1 & N & ->)]].
    + apply all_chars_in in Hm; destruct Hm as (D & P & Q); repeat split; auto; congruence.
    + destruct Hl as [Hl|Hl]; [discriminate|]; injection Hl as -> ->.
      repeat split; [destruct sgn; reflexivity|discriminate].
    + exfalso; destruct Hl as [Hl|Hl]; subst l; rewrite ?app_nil_str in E.
      * assert (X : slen ((m ++ l1) ++ String c b) = slen m) by (rewrite E; reflexivity).
        rewrite !slen_app in X; cbn in X; lia.
      * assert (X : slen ((m ++ l1) ++ String c b) = slen (m ++ "+")) by (rewrite E; reflexivity).
        rewrite !slen_app in X; cbn in X; destruct l1; [congruence|cbn in X; lia].
Qed.

Lemma cut_words : forall sgn text piece, Forall (group_text sgn) (words_from piece text) ->
  cut sgn piece text = words_from piece text.
Proof.
  intros sgn; induction text as [|c t IH]; intros piece F; cbn [cut words_from] in *; [reflexivity|].
  destruct (Ascii.eqb c " ") eqn:B.
  - apply Ascii.eqb_eq in B; subst c.
    assert (D : delimiter sgn " " = true) by (destruct sgn; reflexivity); rewrite D.
    apply Forall_app in F; destruct F as [_ F]; rewrite (IH "" F); reflexivity.
  - destruct (words_from_first t (piece ++ String c "")) as (w & l & E); [destruct piece; discriminate|].
    pose proof F as F0; rewrite E in F0; inversion F0 as [|? ? G _]; subst.
    rewrite app_assoc_s in G; cbn [append] in G; apply group_char in G; destruct G as (D & _ & P); rewrite D.
    destruct (Ascii.eqb c "+") eqn:Q; cbn [andb]; [|exact (IH _ F)].
    apply Ascii.eqb_eq in Q; subst c; specialize (P eq_refl).
    destruct (String.eqb piece "") eqn:Z; cbn [negb]; [exact (IH _ F)|].
    apply String.eqb_neq in Z; specialize (P Z); subst w; rewrite app_nil_str in E.
    (* the word ends here *)
    assert (K : words_from (piece ++ "+") t = ((piece ++ "+")%string :: words_from "" t)%list).
    { destruct t as [|d t]; cbn [words_from] in E |- *.
      - destruct piece; reflexivity.
      - destruct (Ascii.eqb d " ") eqn:Bd; [destruct piece; [congruence|reflexivity]|].
        exfalso; destruct (words_from_first t ((piece ++ "+") ++ String d "")) as (w & l' & E');
          [destruct piece; discriminate|].
        rewrite E' in E; injection E as E _.
        assert (X : slen (((piece ++ "+") ++ String d "") ++ w) = slen (piece ++ "+")) by (rewrite E; reflexivity).
        rewrite !slen_app in X; cbn in X; lia. }
    rewrite K in F |- *; inversion F; subst; f_equal; apply IH; assumption.
Qed.
Lemma words_no_eq : forall sgn text piece, Forall (group_text sgn) (words_from piece text) ->
  all_chars (fun c => c <> "="%char) text.
Proof.
  intros sgn; induction text as [|c t IH]; intros piece F; cbn [words_from all_chars] in *; [exact I|].
  destruct (Ascii.eqb c " ") eqn:B.
  - apply Ascii.eqb_eq in B; subst c; split; [discriminate|].
    apply Forall_app in F; destruct F as [_ F]; exact (IH _ F).
  - destruct (words_from_first t (piece ++ String c "")) as (w & l & E); [destruct piece; discriminate|].
    pose proof F as F0; rewrite E in F0; inversion F0 as [|? ? G _]; subst.
    rewrite app_assoc_s in G; cbn [append] in G; apply group_char in G; destruct G as (_ & N & _).
    split; [exact N|exact (IH _ F)].
Qed.
Lemma groups_words : forall sgn text, Forall (group_text sgn) (words_of text) -> report_groups sgn text = words_of text.
Proof.
  intros sgn text F; unfold report_groups; rewrite before_end_id; [exact (cut_words _ _ _ F)|exact (words_no_eq _ _ _ F)].
Qed.
Lemma words_join : forall l, words_of (join_words l) = flat_map words_of l.
Proof.
  induction l as [|w [|v l] IH]; [reflexivity|cbn; rewrite app_nil_r; reflexivity|].
  change (join_words (w :: v :: l)) with (w ++ String " " (join_words (v :: l))).
  rewrite words_app, IH; reflexivity.
Qed.
Lemma words_texts : forall r, words_of (texts r) = words_of_result r.
Proof.
  intros r; unfold texts, words_of_result; rewrite words_join.
  induction (pr_groups r) as [|i l IH]; [reflexivity|cbn [map flat_map]; rewrite IH; reflexivity].
Qed.

(** ** The same steps again *)
Lemma steps_all : forall limit used p, Steps limit used p -> forall rest,
  step_all limit (used ++ rest) ps_init = step_all limit rest p.
Proof.
  intros limit used p S; induction S as [|used p s q S IH N E]; intros rest; [reflexivity|].
  rewrite <- app_assoc, IH; cbn [app step_all]; rewrite N, E; reflexivity.
Qed.
Lemma all_error : forall limit l p, isError (ps_status p) = true -> step_all limit l p = Ok p.
Proof. intros limit [|s l] p E; cbn [step_all]; [reflexivity|rewrite E; reflexivity]. Qed.

Lemma read_again : forall sgn report limit r, parse sgn report limit = Ok r -> parse sgn (texts r) limit = Ok r.
Proof.
  intros sgn report limit r E; destruct (parse_inv _ _ _ _ E) as (used & rest & p & T & S & R & Ee & F).
  assert (G : report_groups sgn (texts r) = used).
  { pose proof (report_groups_shape sgn report) as Sh; rewrite T in Sh; apply Forall_app in Sh; destruct Sh as [Sh _].
    assert (W0 : words_of (texts r) = used) by (rewrite words_texts, (W_end _ _ Ee), (W_steps _ _ _ S F); reflexivity).
    rewrite groups_words; rewrite W0; [reflexivity|exact Sh]. }
  rewrite parse_eq_parse_groups, G; unfold parse_groups.
  rewrite <- (app_nil_r used), (steps_all _ _ _ S); exact Ee.
Qed.

(** ** More words *)
Lemma cut_space : forall sgn a piece b, cut sgn piece (a ++ String " " b) = (cut sgn piece a ++ cut sgn "" b)%list.
Proof.
  intros sgn; induction a as [|c a IH]; intros piece b; cbn [cut append].
  - assert (D : delimiter sgn " " = true) by (destruct sgn; reflexivity); rewrite D; reflexivity.
  - destruct (delimiter sgn c); [rewrite IH, app_assoc; reflexivity|].
    destruct (Ascii.eqb c "+" && _); rewrite IH; reflexivity.
Qed.
Lemma before_end_space : forall r x, before_end_indicator (r ++ String " " x) = before_end_indicator r
  \/ before_end_indicator (r ++ String " " x) = before_end_indicator r ++ String " " (before_end_indicator x).
Proof.
  induction r as [|c r IH]; intros x; cbn [append before_end_indicator]; [right; reflexivity|].
  destruct (Ascii.eqb c "="); [left; reflexivity|].
  destruct (IH x) as [E|E]; rewrite E; [left|right]; reflexivity.
Qed.
Lemma groups_space : forall sgn r x, exists more, report_groups sgn (r ++ String " " x) = (report_groups sgn r ++ more)%list.
Proof.
  intros sgn r x; unfold report_groups; destruct (before_end_space r x) as [E|E]; rewrite E.
  - exists []; rewrite app_nil_r; reflexivity.
  - rewrite cut_space; eexists; reflexivity.
Qed.
Lemma final_word : forall st, at_a_word (st_error (finalTransition st)) = true -> isError st = true.
Proof.
  intros [s t e] H; unfold isError; destruct s; cbn in H |- *; try discriminate H;
    destruct e; try discriminate H; reflexivity.
Qed.
Lemma error_stops : forall sgn report limit r x, parse sgn report limit = Ok r -> at_a_word (md_error (pr_metadata r)) = true ->
  parse sgn (report ++ " " ++ x) limit = Ok r.
Proof.
  intros sgn report limit r x E A; destruct (parse_inv _ _ _ _ E) as (used & rest & p & T & S & R & Ee & F).
  assert (P : isError (ps_status p) = true).
  { apply parse_end_inv in Ee; destruct Ee as (l & _ & Em & _); rewrite Em in A; exact (final_word _ A). }
  cbn [append]; destruct (groups_space sgn report x) as (more & G).
  rewrite parse_eq_parse_groups, G, T; unfold parse_groups.
  rewrite <- app_assoc, (steps_all _ _ _ S), (all_error _ _ _ P); exact Ee.
Qed.

(** ** The groups before the last two are not touched any more *)
(** [l] (last group first) ends in [K], which the next words leave alone *)
Definition settled (K l : list GroupInfo) : Prop :=
  exists X, l = (X ++ K)%list /\ ((2 <= length X)%nat \/ exists x, X = [x] /\ is_fallback (gi_group x) = true).

Lemma settled_cons : forall K l i, settled K l -> settled K (i :: l).
Proof.
  intros K l i (X & -> & H); exists (i :: X); split; [reflexivity|left].
  destruct H as [H|(x & -> & _)]; cbn [length]; lia.
Qed.
Lemma settled_head : forall K i j l, is_fallback (gi_group j) = is_fallback (gi_group i) -> settled K (i :: l) -> settled K (j :: l).
Proof.
  intros K i j l F (X & E & H); destruct X as [|x X].
  - destruct H as [H|(x & H & _)]; [cbn in H; lia|discriminate H].
  - injection E as <- ->; exists (j :: X); split; [reflexivity|].
    destruct H as [H|(x & H & Fx)]; [left; exact H|right].
    injection H as <- ->; exists j; split; [reflexivity|congruence].
Qed.
(** [l] without its head, if that is not an unknown group *)
Lemma settled_tail : forall K i l, is_fallback (gi_group i) = false -> settled K (i :: l) ->
  exists X, l = (X ++ K)%list /\ (1 <= length X)%nat.
Proof.
  intros K i l F (X & E & H); destruct X as [|x X].
  - destruct H as [H|(x & H & _)]; [cbn in H; lia|discriminate H].
  - injection E as <- ->; exists X; split; [reflexivity|].
    destruct H as [H|(x & H & Fx)]; [cbn in H; lia|]. injection H as <- ->; congruence.
Qed.
Lemma settled_add : forall K l g part s, settled K l -> settled K (addGroupToResult l g part s).
Proof.
  intros K [|i l] g part s H; cbn [addGroupToResult]; [apply settled_cons; exact H|].
  destruct (is_fallback g && is_fallback (gi_group i)); [|apply settled_cons; exact H].
  eapply settled_head; [|exact H]; reflexivity.
Qed.
Lemma settled_replace : forall K X g part s, (1 <= length X)%nat -> settled K (addGroupToResult (X ++ K) g part s).
Proof.
  intros K [|x X] g part s H; [cbn in H; lia|]; cbn [app addGroupToResult].
  destruct (is_fallback g && is_fallback (gi_group x)) eqn:E.
  - apply andb_prop in E; destruct E as [_ E].
    exists (mkGroupInfo (gi_group x) (gi_reportPart x) (gi_rawString x ++ String " " s) :: X); split; [reflexivity|].
    destruct X as [|y X]; [right|left; cbn; lia].
    eexists; split; [reflexivity|exact E].
  - exists (mkGroupInfo g part s :: x :: X); split; [reflexivity|left; cbn; lia].
Qed.
Lemma settled_noReparse : forall K l s part md l' b, settled K l ->
  appendToLastResultGroup_noReparse l s part md = Ok (l', b) -> settled K l'.
Proof.
  intros K [|i l] s part md l' b H E; cbn [appendToLastResultGroup_noReparse] in E.
  - injection E as <- <-; exact H.
  - destruct (is_fallback (gi_group i)) eqn:F; [injection E as <- <-; exact H|].
    apply bind_ok in E; destruct E as ([g a] & A & E); apply append_fallback in A; rewrite F in A.
    destruct a; apply ok_pair_inj in E; destruct E as [-> ->].
    + eapply settled_head; [|exact H]; cbn; congruence.
    + eapply settled_head; [|exact H]; cbn; congruence.
    + apply settled_add; eapply settled_head; [|exact H]; cbn; congruence.
Qed.
Lemma settled_appendToLast : forall K l s part md l' b, settled K l ->
  appendToLastResultGroup l s part md = Ok (l', b) -> settled K l'.
Proof.
  intros K [|i l] s part md l' b H E; cbn [appendToLastResultGroup] in E.
  - injection E as <- <-; exact H.
  - destruct (is_fallback (gi_group i)) eqn:F; [injection E as <- <-; exact H|].
    apply bind_ok in E; destruct E as ([g a] & A & E); apply append_fallback in A; rewrite F in A.
    destruct a.
    + apply ok_pair_inj in E; destruct E as [-> ->]; eapply settled_head; [|exact H]; cbn; congruence.
    + apply ok_pair_inj in E; destruct E as [-> ->]; eapply settled_head; [|exact H]; cbn; congruence.
    + apply bind_ok in E; destruct E as (g' & _ & E); cbv zeta in E.
      destruct (settled_tail _ _ _ F H) as (X & -> & L).
      pose proof (settled_replace K X g' (gi_reportPart i) (gi_rawString i) L) as Sa.
      destruct (is_fallback g'); [apply ok_pair_inj in E; destruct E as [-> ->]; exact Sa|].
      eapply settled_noReparse; [exact Sa | exact E].
Qed.
Lemma settled_step : forall K limit s p q, parse_step limit s p = Ok q -> settled K (ps_groups p) -> settled K (ps_groups q).
Proof.
  intros K limit s p q E H; unfold parse_step in E; cbv zeta in E.
  apply bind_ok in E; destruct E as ([l b] & A & E); apply (settled_appendToLast K) in A; [|exact H].
  destruct b; cbn [negb] in E.
  - destruct (count_group _ _ _) as [n st]; injection E as <-; exact A.
  - apply bind_ok in E; destruct E as ([[[g part] n] st] & _ & E).
    apply bind_ok in E; destruct E as (md & _ & E); injection E as E; subst q; cbn [ps_groups].
    apply settled_add; exact A.
Qed.
Lemma settled_all : forall K limit l p q, step_all limit l p = Ok q -> settled K (ps_groups p) -> settled K (ps_groups q).
Proof.
  induction l as [|s l IH]; intros p q E H; cbn [step_all] in E; [injection E as <-; exact H|].
  destruct (isError (ps_status p)); [injection E as <-; exact H|].
  apply bind_ok in E; destruct E as (p' & E1 & E2); eapply IH; [exact E2|].
  eapply settled_step; eassumption.
Qed.
(** the result ends in what was settled *)
Lemma settled_end : forall K p r, parse_end p = Ok r -> settled K (ps_groups p) -> exists last, pr_groups r = (rev K ++ last)%list.
Proof.
  intros K p r E H; apply parse_end_inv in E; destruct E as (l & G & _ & C); rewrite G.
  assert (Q : exists X, l = (X ++ K)%list).
  { destruct C as [[Z ->]|(l' & b & N & A & i & l0 & -> & ->)].
    - rewrite Z in H; destruct H as (X & E & H); destruct X; [destruct H as [H|(x & H & _)]; [cbn in H; lia|discriminate H]|discriminate E].
    - apply (settled_appendToLast K) in A; [|exact H]; destruct A as (X & E & H').
      destruct (sempty (gi_rawString i)); [|exists X; exact E].
      destruct X as [|x X]; [destruct H' as [H'|(x & H' & _)]; [cbn in H'; lia|discriminate H']|].
      injection E as <- ->; exists X; reflexivity. }
  destruct Q as (X & ->); rewrite rev_app_distr; eexists; reflexivity.
Qed.

(** The groups at the end of the shorter report *)
Definition few (l : list GroupInfo) : Prop := (length (with_text l) <= 2)%nat.
Lemma filter_rev : forall (A : Type) (f : A -> bool) l, length (filter f (rev l)) = length (filter f l).
Proof.
  intros A f l; induction l as [|x l IH]; [reflexivity|].
  cbn [rev]; rewrite filter_app, app_length, IH; cbn; destruct (f x); cbn; lia.
Qed.
Lemma filter_le : forall (A : Type) (f : A -> bool) l, (length (filter f l) <= length l)%nat.
Proof. induction l as [|x l IH]; cbn; [lia|destruct (f x); cbn; lia]. Qed.
Lemma few_le : forall l, (length l <= 2)%nat -> few l.
Proof. intros l H; unfold few, with_text; pose proof (filter_le _ (fun i => negb (String.eqb (gi_rawString i) "")) l); lia. Qed.
Lemma few_tail : forall i l, few (i :: l) -> few l.
Proof. intros i l; unfold few, with_text; cbn [filter]; destruct (negb _); cbn [length]; lia. Qed.
Lemma few_ghost : forall u i l, (length l <= 1)%nat -> gi_rawString i = "" -> few (u :: i :: l).
Proof.
  intros u i l L G; unfold few, with_text; cbn [filter]; rewrite G; cbn [String.eqb negb].
  pose proof (filter_le _ (fun i => negb (String.eqb (gi_rawString i) "")) l); destruct (negb _); cbn [length]; lia.
Qed.
Lemma end_few : forall i t s part md l' b, appendToLastResultGroup (i :: t) s part md = Ok (l', b) ->
  exists y Y, l' = (y :: Y ++ skipn 1 t)%list /\ few (y :: Y).
Proof.
  intros i t s part md l' b E; cbn [appendToLastResultGroup] in E.
  assert (L : (length (firstn 1 t) <= 1)%nat) by (rewrite firstn_length; lia).
  assert (One : forall j, exists y Y, (j :: t = y :: Y ++ skipn 1 t)%list /\ few (y :: Y)).
  { intros j; exists j, (firstn 1 t); rewrite firstn_skipn; split; [reflexivity|apply few_le; cbn [length]; lia]. }
  destruct (is_fallback (gi_group i)) eqn:F; [injection E as <- <-; apply One|].
  apply bind_ok in E; destruct E as ([g a] & A & E).
  destruct a; try (apply ok_pair_inj in E; destruct E as [-> ->]; apply One).
  apply bind_ok in E; destruct E as (g' & _ & E); cbv zeta in E.
  destruct (is_fallback g') eqn:F'.
  - apply ok_pair_inj in E; destruct E as [-> ->].
    destruct t as [|h t]; cbn [addGroupToResult].
    + eexists _, []; split; [reflexivity|apply few_le; cbn; lia].
    + destruct (is_fallback g' && is_fallback (gi_group h)); [|apply One].
      eexists _, []; split; [reflexivity|apply few_le; cbn; lia].
  - assert (R : addGroupToResult t g' (gi_reportPart i) (gi_rawString i) = mkGroupInfo g' (gi_reportPart i) (gi_rawString i) :: t)
      by (destruct t; cbn [addGroupToResult]; rewrite ?F'; reflexivity).
    rewrite R in E; cbn [appendToLastResultGroup_noReparse gi_group] in E; rewrite F' in E.
    apply bind_ok in E; destruct E as ([g2 a2] & A2 & E); apply append_fallback in A2; rewrite F' in A2.
    destruct a2; apply ok_pair_inj in E; destruct E as [-> ->]; try apply One.
    cbn [addGroupToResult gi_group]; rewrite A2; cbn [andb is_fallback].
    eexists _, (_ :: firstn 1 t); cbn [app]; rewrite firstn_skipn; split; [reflexivity|].
    apply few_ghost; [exact L|reflexivity].
Qed.
Lemma result_few : forall p r, parse_end p = Ok r ->
  exists last, pr_groups r = (rev (skipn 2 (ps_groups p)) ++ last)%list /\ few last.
Proof.
  intros p r E; apply parse_end_inv in E; destruct E as (l & G & _ & C); rewrite G; clear G.
  destruct C as [[Z ->]|(l' & b & N & A & i & l0 & -> & ->)].
  - rewrite Z; exists []; split; [reflexivity|apply few_le; cbn; lia].
  - destruct (ps_groups p) as [|j t]; [congruence|].
    change (skipn 2 (j :: t)) with (skipn 1 t).
    destruct (end_few _ _ _ _ _ _ _ A) as (y & Y & E & W); injection E as -> ->.
    destruct (sempty (gi_rawString y)).
    + exists (rev Y); rewrite rev_app_distr; split; [reflexivity|].
      apply few_tail in W; unfold few, with_text in W |- *; rewrite filter_rev; exact W.
    + exists (rev (y :: Y)); split; [rewrite <- rev_app_distr; reflexivity|].
      unfold few, with_text in W |- *; rewrite filter_rev; exact W.
Qed.

Lemma more_words : forall sgn report limit x r r', parse sgn report limit = Ok r -> parse sgn (report ++ " " ++ x) limit = Ok r' ->
  same_but_last 2 (pr_groups r) (pr_groups r').
Proof.
  intros sgn report limit x r r' E E'; destruct (parse_inv _ _ _ _ E) as (used & rest & p & T & S & R & Ee & F).
  cbn [append] in E'; destruct (groups_space sgn report x) as (more & G).
  rewrite parse_eq_parse_groups, G, T in E'; unfold parse_groups in E'.
  rewrite <- app_assoc, (steps_all _ _ _ S) in E'.
  apply bind_ok in E'; destruct E' as (q & Q & Eq).
  destruct (result_few _ _ Ee) as (last & L & Few).
  destruct (ps_groups p) as [|a [|b K]] eqn:P.
  - exists [], last, (pr_groups r'); rewrite L; auto.
  - exists [], last, (pr_groups r'); rewrite L; auto.
  - assert (St : settled K (ps_groups p)) by (rewrite P; exists [a; b]; split; [reflexivity|left; cbn; lia]).
    destruct (settled_end _ _ _ Eq (settled_all _ _ _ _ _ Q St)) as (last' & L').
    exists (rev K), last, last'; rewrite L, L'; auto.
Qed.

(** ** Words are separated by single spaces *)
Definition neat (s : string) : Prop := s = join_words (words_of s).
Lemma join_app : forall l m, l <> [] -> m <> [] -> join_words (l ++ m) = join_words l ++ String " " (join_words m).
Proof.
  induction l as [|w [|v l] IH]; intros m L M; [congruence| |].
  - destruct m as [|x m]; [congruence|reflexivity].
  - change (join_words ((w :: v :: l) ++ m)%list) with (w ++ " " ++ join_words ((v :: l) ++ m)%list).
    change (join_words (w :: v :: l)) with (w ++ " " ++ join_words (v :: l)).
    rewrite IH by (discriminate || exact M); rewrite !app_assoc_s; reflexivity.
Qed.
Lemma neat_app : forall a b, neat a -> neat b -> words_of a <> [] -> words_of b <> [] -> neat (a ++ String " " b).
Proof.
  intros a b A B Na Nb; unfold neat; rewrite words_app, (join_app _ _ Na Nb).
  rewrite <- A, <- B; reflexivity.
Qed.
Lemma neat_token : forall s, token s -> neat s.
Proof. intros s T; unfold neat; rewrite (words_token _ T); reflexivity. Qed.
Definition neat_all (l : list GroupInfo) : Prop := Forall (fun i => neat (gi_rawString i)) l.
Lemma neat_add : forall l g part s, Shape l -> neat_all l -> neat s -> words_of s <> [] -> neat_all (addGroupToResult l g part s).
Proof.
  intros [|i l] g part s Sh A B N; cbn [addGroupToResult]; [constructor; [exact B|constructor]|].
  inversion A as [|? ? A1 A2]; subst.
  destruct (is_fallback g && _); [|constructor; assumption].
  constructor; [|exact A2]; cbn; apply neat_app; try assumption; exact (shape_head _ _ Sh).
Qed.
(** [s] is a word, or nothing at the end of the report, which no group takes *)
Definition offered (s : string) : Prop := token s \/ s = "".
Lemma neat_taken : forall g part md g' s raw, offered s -> is_fallback g = false -> Group_append g s part md = Ok (g', APPENDED) ->
  neat raw -> words_of raw <> [] -> neat (raw ++ String " " s).
Proof.
  intros g part md g' s raw [T|T] F A N W.
  - apply neat_app; [exact N|exact (neat_token _ T)|exact W|rewrite (words_token _ T); discriminate].
  - subst s; destruct (Pf_EndAppend.end_append _ _ _ _ F A).
Qed.
Lemma neat_noReparse : forall l s part md l' b, offered s -> Shape l -> neat_all l ->
  appendToLastResultGroup_noReparse l s part md = Ok (l', b) -> neat_all l'.
Proof.
  intros [|i l] s part md l' b O Sh H E; cbn [appendToLastResultGroup_noReparse] in E.
  - injection E as <- <-; exact H.
  - inversion H as [|? ? H1 H2]; subst.
    destruct (is_fallback (gi_group i)) eqn:F; [injection E as <- <-; exact H|].
    apply bind_ok in E; destruct E as ([g a] & A & E); pose proof (append_fallback _ _ _ _ _ _ A) as F'; rewrite F in F'.
    pose proof (shape_head _ _ Sh) as T.
    destruct a; apply ok_pair_inj in E; destruct E as [-> ->].
    + constructor; [|exact H2]; cbn; exact (neat_taken _ _ _ _ _ _ O F A H1 T).
    + constructor; [exact H1|exact H2].
    + cbn [addGroupToResult gi_group]; rewrite F'; cbn [andb is_fallback].
      constructor; [exact H1|constructor; [reflexivity|exact H2]].
Qed.
Lemma neat_appendToLast : forall l s part md l' b, offered s -> Shape l -> neat_all l ->
  appendToLastResultGroup l s part md = Ok (l', b) -> neat_all l'.
Proof.
  intros [|i l] s part md l' b O Sh H E; cbn [appendToLastResultGroup] in E.
  - injection E as <- <-; exact H.
  - inversion H as [|? ? H1 H2]; subst.
    destruct (is_fallback (gi_group i)) eqn:F; [injection E as <- <-; exact H|].
    apply bind_ok in E; destruct E as ([g a] & A & E).
    pose proof (shape_head _ _ Sh) as T; pose proof (shape_tail _ _ Sh F) as Sl.
    destruct a.
    + apply ok_pair_inj in E; destruct E as [-> ->].
      constructor; [|exact H2]; cbn; exact (neat_taken _ _ _ _ _ _ O F A H1 T).
    + apply ok_pair_inj in E; destruct E as [-> ->]; constructor; [exact H1|exact H2].
    + apply bind_ok in E; destruct E as (g' & _ & E); cbv zeta in E.
      pose proof (shape_add l g' (gi_reportPart i) _ Sl T) as Sa.
      pose proof (neat_add l g' (gi_reportPart i) _ Sl H2 H1 T) as Na.
      destruct (is_fallback g'); [apply ok_pair_inj in E; destruct E as [-> ->]; exact Na|].
      exact (neat_noReparse _ _ _ _ _ _ O Sa Na E).
Qed.
Lemma neat_steps : forall limit used p, Steps limit used p -> Forall token used -> neat_all (ps_groups p).
Proof.
  intros limit used p H; induction H as [|used p s q H IH Er E]; intros F; [constructor|].
  apply Forall_app in F; destruct F as [F1 F2]; inv F2; specialize (IH F1).
  assert (T : words_of s <> []) by (rewrite words_token by assumption; discriminate).
  pose proof (shape_steps _ _ _ H F1) as Sh.
  unfold parse_step in E; cbv zeta in E.
  apply bind_ok in E; destruct E as ([l b] & A & E).
  pose proof (shape_appendToLast _ _ _ _ _ _ Sh A) as Sa.
  apply neat_appendToLast in A; [|left; assumption|exact Sh|exact IH].
  destruct b; cbn [negb] in E.
  - destruct (count_group _ _ _) as [n st]; injection E as <-; exact A.
  - apply bind_ok in E; destruct E as ([[[g part] n] st] & _ & E).
    apply bind_ok in E; destruct E as (md & _ & E); injection E as E; subst q; cbn [ps_groups].
    apply neat_add; try assumption; apply neat_token; assumption.
Qed.
Lemma single_spaces : forall sgn report limit r i, parse sgn report limit = Ok r -> In i (pr_groups r) ->
  gi_rawString i = join_words (words_of (gi_rawString i)).
Proof.
  intros sgn report limit r i E Hi; destruct (parse_inv _ _ _ _ E) as (used & rest & p & T & S & R & Ee & F).
  pose proof (neat_steps _ _ _ S F) as N; pose proof (shape_steps _ _ _ S F) as Sh.
  apply parse_end_inv in Ee; destruct Ee as (l & G & _ & C); rewrite G in Hi; apply in_rev in Hi.
  assert (A : neat_all l).
  { destruct C as [[_ ->]|(l' & b & _ & A & j & l0 & -> & ->)]; [constructor|].
    apply neat_appendToLast in A; [|right; reflexivity|exact Sh|exact N].
    destruct (sempty (gi_rawString j)); [inversion A; assumption|exact A]. }
  unfold neat_all in A; rewrite Forall_forall in A; exact (A i Hi).
Qed.

(** ** Both of the last two groups may change *)
Lemma common_short : forall l l', same_but_last 1 l l' -> forall n x x', nth_error l n = Some x -> nth_error l' n = Some x' ->
  gi_rawString x <> gi_rawString x' -> (length (with_text (skipn n l)) <= 1)%nat.
Proof.
  intros l l' (c & t & t' & -> & -> & L) n x x' H H' D.
  destruct (Nat.lt_ge_cases n (length c)) as [Lt|Ge].
  - rewrite nth_error_app1 in H, H' by exact Lt; congruence.
  - replace n with (length c + (n - length c))%nat by lia.
    assert (S : forall k (m : list GroupInfo), (length (with_text (skipn k m)) <= length (with_text m))%nat).
    { induction k as [|k IH]; intros [|y m]; cbn [skipn]; try lia. specialize (IH m).
      unfold with_text in IH |- *; cbn [filter]; destruct (negb _); cbn [length]; lia. }
    assert (A : forall k, skipn (length c + k) (c ++ t) = skipn k t)
      by (intros k; clear; induction c as [|y c IH]; [reflexivity|exact IH]).
    rewrite A; etransitivity; [apply S|exact L].
Qed.
Lemma two_change : exists (report more : string) r r', parse true report 100 = Ok r /\ parse true (report ++ " " ++ more) 100 = Ok r'
  /\ ~ same_but_last 1 (pr_groups r) (pr_groups r').
Proof.
  exists "METAR ZZZZ 010000Z RMK FOO SFC VIS 1", "1/2V2".
  destruct (parse true "METAR ZZZZ 010000Z RMK FOO SFC VIS 1" 100) as [r|] eqn:E; [|vm_compute in E; discriminate E].
  destruct (parse true ("METAR ZZZZ 010000Z RMK FOO SFC VIS 1" ++ " " ++ "1/2V2") 100) as [r'|] eqn:E'; [|vm_compute in E'; discriminate E'].
  exists r, r'; repeat split; intros H.
  vm_compute in E, E'; injection E as <-; injection E' as <-.
  pose proof (common_short _ _ H 4%nat _ _ eq_refl eq_refl) as C; cbn in C.
  assert (D : "FOO" <> "FOO SFC VIS 1 1/2V2") by discriminate; specialize (C D); lia.
Qed.
