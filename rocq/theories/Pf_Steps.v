(** The loop of Parser::parse step by step: which text ends up where, and how many groups. *)
From Verif Require Import Prim Regex Float Values Weather Groups1 Groups2 Groups3 Groups4 Parser Lib
  SpecTokens SpecReads Pf_Tokens SpecText Pf_Ok Pf_Total SpecReach.
Local Open Scope string_scope.

Lemma ok_pair_inj : forall (A B : Type) (a c : A) (b d : B), Ok (a, b) = Ok (c, d) -> c = a /\ d = b.
Proof. intros A B a c b d H; injection H; auto. Qed.

(** ** Words *)

Lemma words_from_app : forall a piece b,
  words_from piece (a ++ String " " b) = (words_from piece a ++ words_of b)%list.
Proof.
  induction a as [|c a IH]; intros piece b; cbn [words_from append].
  - rewrite Ascii.eqb_refl; reflexivity.
  - destruct (Ascii.eqb c " "); rewrite IH; [rewrite app_assoc|]; reflexivity.
Qed.
Lemma words_app : forall a b, words_of (a ++ String " " b) = (words_of a ++ words_of b)%list.
Proof. intros; apply words_from_app. Qed.

Definition token (s : string) : Prop := s <> "" /\ all_chars (fun c => c <> " "%char) s.

Lemma app_nil_str : forall s : string, s ++ "" = s.
Proof. induction s as [|c s IH]; cbn; [reflexivity | now rewrite IH]. Qed.
Lemma app_assoc_str : forall a b c : string, (a ++ b) ++ c = a ++ b ++ c.
Proof. induction a as [|x a IH]; intros; cbn; [reflexivity | now rewrite IH]. Qed.
Lemma words_from_token : forall s piece, all_chars (fun c => c <> " "%char) s ->
  words_from piece s = nonempty_word (piece ++ s).
Proof.
  induction s as [|c s IH]; intros piece H; cbn [words_from].
  - rewrite app_nil_str; reflexivity.
  - destruct H as [Hc H]; destruct (Ascii.eqb c " ") eqn:E.
    + apply Ascii.eqb_eq in E; contradiction.
    + rewrite IH by exact H; rewrite app_assoc_str; reflexivity.
Qed.
Lemma words_token : forall s, token s -> words_of s = [s].
Proof.
  intros s [N H]; unfold words_of; rewrite words_from_token by exact H; cbn.
  destruct s; [congruence | reflexivity].
Qed.

Lemma all_chars_app : forall (P : ascii -> Prop) a b,
  all_chars P a -> all_chars P b -> all_chars P (a ++ b).
Proof. induction a as [|c a IH]; intros b A B; cbn in *; [exact B | split; [apply A | apply IH; [apply A|exact B]]]. Qed.
Lemma all_chars_imp : forall (P Q : ascii -> Prop), (forall c, P c -> Q c) ->
  forall s, all_chars P s -> all_chars Q s.
Proof. intros P Q H; induction s as [|c s IH]; cbn; intros A; [exact I | split; [apply H, A | apply IH, A]]. Qed.
Lemma group_text_token : forall sgn s, group_text sgn s -> token s.
Proof.
  intros sgn s (f & m & l & -> & L & D & _ & M).
  assert (N : forall c, delimiter sgn c = false -> c <> " "%char).
  { intros c Hc ->; destruct sgn; discriminate Hc. }
  split; [discriminate|]; cbn [append all_chars]; split; [apply N, D|].
  apply all_chars_app; [eapply all_chars_imp; [|exact M]; intros c [X _]; apply N, X|].
  destruct L as [-> | ->]; cbn; [exact I | split; [discriminate | exact I]].
Qed.
Lemma report_tokens : forall sgn report, Forall token (report_groups sgn report).
Proof.
  intros; eapply Forall_impl; [intros s; apply group_text_token with (sgn := sgn) | apply report_groups_shape].
Qed.

(** ** The steps taken *)

Inductive Steps (limit : nat) : list string -> ParserState -> Prop :=
| Steps_nil : Steps limit [] ps_init
| Steps_snoc : forall used p s q,
    Steps limit used p -> isError (ps_status p) = false -> parse_step limit s p = Ok q ->
    Steps limit (used ++ [s]) q.

Lemma steps_of_step_all : forall limit toks used p q,
  Steps limit used p -> step_all limit toks p = Ok q ->
  exists more rest, toks = (more ++ rest)%list /\ Steps limit (used ++ more) q
    /\ (rest = [] \/ isError (ps_status q) = true).
Proof.
  induction toks as [|s toks IH]; intros used p q H E; cbn [step_all] in E.
  - injection E as <-; exists [], []; repeat split; [rewrite app_nil_r; exact H | auto].
  - destruct (isError (ps_status p)) eqn:Er.
    + injection E as <-; exists [], (s :: toks); repeat split; [rewrite app_nil_r; exact H | auto].
    + destruct (parse_step limit s p) as [p'|] eqn:Ep; [|discriminate]; cbn [bind] in E.
      destruct (IH (used ++ [s])%list p' q) as (more & rest & -> & S & R); [econstructor; eassumption | exact E |].
      exists (s :: more), rest; rewrite <- app_assoc in S; repeat split; assumption.
Qed.

(** What a parse consists of *)
Lemma parse_inv : forall sgn report limit r, parse sgn report limit = Ok r ->
  exists used rest p, report_groups sgn report = (used ++ rest)%list /\ Steps limit used p
    /\ (rest = [] \/ isError (ps_status p) = true) /\ parse_end p = Ok r
    /\ Forall token used.
Proof.
  intros sgn report limit r E; rewrite parse_eq_parse_groups in E; unfold parse_groups in E.
  apply bind_ok in E; destruct E as (p & E & E2).
  destruct (steps_of_step_all limit _ [] ps_init p (Steps_nil _) E) as (used & rest & T & S & R).
  exists used, rest, p; cbn [app] in S; repeat split; auto.
  pose proof (report_tokens sgn report) as F; rewrite T in F; apply Forall_app in F; apply F.
Qed.

(** ** The words of the groups *)

Definition W (l : list GroupInfo) : list string :=
  flat_map (fun i => words_of (gi_rawString i)) (rev l).
Lemma W_cons : forall i l, W (i :: l) = (W l ++ words_of (gi_rawString i))%list.
Proof. intros; unfold W; cbn [rev]; rewrite flat_map_app; cbn; rewrite app_nil_r; reflexivity. Qed.

Lemma W_add : forall l g part s, W (addGroupToResult l g part s) = (W l ++ words_of s)%list.
Proof.
  intros [|i l] g part s; cbn [addGroupToResult]; [rewrite W_cons; reflexivity|].
  destruct (is_fallback g && is_fallback (gi_group i)); rewrite !W_cons; cbn [gi_rawString];
    [rewrite words_app, app_assoc|]; reflexivity.
Qed.
Definition W_of (b : bool) (s : string) : list string := if b then words_of s else [].
Lemma W_append_noReparse : forall l s part md l' b,
  appendToLastResultGroup_noReparse l s part md = Ok (l', b) -> W l' = (W l ++ W_of b s)%list.
Proof.
  intros [|i l] s part md l' b E; cbn [appendToLastResultGroup_noReparse] in E.
  - injection E as <- <-; reflexivity.
  - destruct (is_fallback (gi_group i)); [injection E as <- <-; symmetry; apply app_nil_r|].
    apply bind_ok in E; destruct E as ([g a] & _ & E); destruct a; apply ok_pair_inj in E; destruct E as [-> ->];
      rewrite ?W_add, !W_cons; cbn [gi_rawString W_of]; rewrite ?words_app, ?app_nil_r, ?app_assoc; reflexivity.
Qed.
Lemma W_appendToLast : forall l s part md l' b,
  appendToLastResultGroup l s part md = Ok (l', b) -> W l' = (W l ++ W_of b s)%list.
Proof.
  intros [|i l] s part md l' b E; cbn [appendToLastResultGroup] in E.
  - injection E as <- <-; reflexivity.
  - destruct (is_fallback (gi_group i)); [injection E as <- <-; symmetry; apply app_nil_r|].
    apply bind_ok in E; destruct E as ([g a] & _ & E); destruct a;
      try (apply ok_pair_inj in E; destruct E as [-> ->];
           rewrite !W_cons; cbn [gi_rawString W_of]; rewrite ?words_app, ?app_nil_r, ?app_assoc; reflexivity).
    apply bind_ok in E; destruct E as (g' & _ & E); cbv zeta in E.
    destruct (is_fallback g').
    + apply ok_pair_inj in E; destruct E as [-> ->]; rewrite W_add, W_cons; symmetry; apply app_nil_r.
    + apply W_append_noReparse in E; rewrite E, W_add, W_cons; reflexivity.
Qed.
Lemma W_step : forall limit s p q, parse_step limit s p = Ok q ->
  W (ps_groups q) = (W (ps_groups p) ++ words_of s)%list.
Proof.
  intros limit s p q E; unfold parse_step in E; cbv zeta in E.
  apply bind_ok in E; destruct E as ([l b] & A & E); apply W_appendToLast in A.
  destruct b; cbn [negb] in E.
  - destruct (count_group _ _ _) as [n st]; injection E as <-; exact A.
  - apply bind_ok in E; destruct E as ([[[g part] n] st] & _ & E).
    apply bind_ok in E; destruct E as (md & _ & E); injection E as <-; cbn [ps_groups].
    rewrite W_add, A; cbn [W_of]; rewrite app_nil_r; reflexivity.
Qed.
Lemma W_steps : forall limit used p, Steps limit used p -> Forall token used -> W (ps_groups p) = used.
Proof.
  intros limit used p H; induction H as [|used p s q H IH Er E]; intros F; [reflexivity|].
  apply Forall_app in F; destruct F as [F1 F2]; inv F2.
  rewrite (W_step _ _ _ _ E), IH, words_token by assumption; reflexivity.
Qed.

(** The groups at the end *)
Lemma parse_end_inv : forall p r, parse_end p = Ok r ->
  exists l, pr_groups r = rev l
    /\ pr_metadata r = md_set_typeError (ps_md p) (st_type (finalTransition (ps_status p)))
                         (st_error (finalTransition (ps_status p)))
    /\ ((ps_groups p = [] /\ l = [])
        \/ exists l' b, ps_groups p <> []
             /\ appendToLastResultGroup (ps_groups p) "" (getReportPart (ps_status p)) (ps_md p) = Ok (l', b)
             /\ exists i l0, l' = i :: l0 /\ l = if sempty (gi_rawString i) then l0 else l').
Proof.
  intros p r E; unfold parse_end in E; apply bind_ok in E; destruct E as (l & E1 & E2).
  injection E2 as <-; exists l; cbn [pr_groups pr_metadata]; split; [reflexivity|]; split; [reflexivity|].
  destruct (ps_groups p) as [|i l1] eqn:G; [injection E1 as <-; auto|]; right.
  apply bind_ok in E1; destruct E1 as ([l' b] & A & E1).
  destruct l' as [|j l0]; [discriminate|]; injection E1 as <-.
  exists (j :: l0), b; repeat split; [discriminate | exact A | eauto].
Qed.
Lemma W_end : forall p r, parse_end p = Ok r -> words_of_result r = W (ps_groups p).
Proof.
  intros p r E; apply parse_end_inv in E; destruct E as (l & G & _ & C).
  unfold words_of_result; rewrite G; fold (W l).
  destruct C as [[-> ->]|(l' & b & N & A & i & l0 & -> & ->)]; [reflexivity|].
  apply W_appendToLast in A.
  assert (W_of b "" = []) as X by (destruct b; reflexivity).
  rewrite X, app_nil_r in A; rewrite <- A.
  destruct (sempty (gi_rawString i)) eqn:Z; [|reflexivity].
  apply sempty_true in Z; rewrite W_cons, Z; symmetry; apply app_nil_r.
Qed.

Lemma final_error : forall st, st_error (finalTransition st) = RE_NONE -> isError st = false.
Proof.
  intros [s t e] H; unfold isError; destruct s; cbn in *; try discriminate; rewrite H; reflexivity.
Qed.
Lemma raw_text_conserved : forall sgn report limit r, parse sgn report limit = Ok r ->
  exists rest, report_groups sgn report = (words_of_result r ++ rest)%list
    /\ (md_error (pr_metadata r) = RE_NONE -> rest = []).
Proof.
  intros sgn report limit r E; destruct (parse_inv _ _ _ _ E) as (used & rest & p & T & S & R & Ee & F).
  exists rest; rewrite (W_end _ _ Ee), (W_steps _ _ _ S F); split; [exact T|].
  intros M; destruct R as [R|R]; [exact R|].
  apply parse_end_inv in Ee; destruct Ee as (l & _ & Em & _); rewrite Em in M; cbn in M.
  apply final_error in M; congruence.
Qed.
