(** The table of explanations (C65, C66, C67). *)
From Coq Require Import Lia NArith List String.
Import ListNotations.
From Verif Require Import Prim Lib Regex Float Values Weather Groups1 Groups2 Groups3 Groups4 Parser Summary Format Explain SpecExplain.
From Verif Require Import SpecSumNumbers SpecTokens SpecText SpecReads SpecReach SpecForm SpecVisibility.
From Verif Require Import Pf_Total Pf_Tokens Pf_Steps Pf_Ghost Pf_ExText Pf_ExValues Pf_ExBreaks Pf_Explain.
From Verif Require Pf_Type Pf_WindWords Pf_Trend Pf_MinMax Pf_Miscs Pf_Visibility.
Local Open Scope string_scope.

(** ** Characters and texts of a report *)
Lemma occurs_words : forall c s p, Ascii.eqb c " " = false -> occurs c (p ++ s) = true -> exists w, In w (words_from p s) /\ occurs c w = true.
Proof.
  intros c s. induction s as [|d s IH]; intros p N H; cbn [words_from].
  - rewrite occurs_app in H. cbn [occurs] in H. rewrite orb_false_r in H. exists p. split; [|exact H]. destruct p; [discriminate H|left; reflexivity].
  - destruct (Ascii.eqb d " ") eqn:E.
    + rewrite occurs_app in H. cbn [occurs] in H. apply orb_prop in H. destruct H as [H|H].
      * exists p. split; [|exact H]. apply in_or_app. left. destruct p; [discriminate H|left; reflexivity].
      * apply Ascii.eqb_eq in E. subst d. rewrite N in H. destruct (IH "" N H) as (w & W & O). exists w. split; [apply in_or_app; right; exact W|exact O].
    + apply IH; [exact N|]. rewrite app_assoc_s. exact H.
Qed.
Lemma cut_part : forall sgn text piece w, In w (cut sgn piece text) -> exists a b, piece ++ text = a ++ w ++ b.
Proof.
  intros sgn text. induction text as [|c text IH]; intros piece w H; cbn [cut] in H.
  - exists "", "". destruct piece; [contradiction|]. destruct H as [<-|[]]. reflexivity.
  - destruct (delimiter sgn c).
    + apply in_app_or in H. destruct H as [H|H].
      * exists "", (String c text). destruct piece; [contradiction|]. destruct H as [<-|[]]. reflexivity.
      * destruct (IH _ _ H) as (a & b & E). exists (piece ++ String c a), b. rewrite app_assoc_s. cbn [append] in *. rewrite E. reflexivity.
    + destruct (Ascii.eqb c "+" && negb (String.eqb piece "")) eqn:P.
      * apply andb_prop in P. destruct P as [P _]. apply Ascii.eqb_eq in P. subst c. destruct H as [<-|H].
        -- exists "", text. cbn [append]. rewrite app_assoc_s. reflexivity.
        -- destruct (IH _ _ H) as (a & b & E). exists (piece ++ String "+" a), b. rewrite app_assoc_s. cbn [append] in *. rewrite E. reflexivity.
      * destruct (IH _ _ H) as (a & b & E). exists a, b. rewrite app_assoc_s in E. exact E.
Qed.
Lemma before_end_part : forall s, exists b, s = before_end_indicator s ++ b.
Proof.
  induction s as [|c s (b & E)]; [exists ""; reflexivity|]. cbn [before_end_indicator]. destruct (Ascii.eqb c "="); [exists (String c s); reflexivity|].
  exists b. cbn [append]. rewrite <- E. reflexivity.
Qed.
Lemma word_part : forall sgn report limit r, parse sgn report limit = Ok r -> forall i w, In i (pr_groups r) -> In w (words_of (gi_rawString i)) ->
  exists a b, report = a ++ w ++ b.
Proof.
  intros sgn report limit r E i w Hi Hw. destruct (raw_text_conserved _ _ _ _ E) as (rest & R & _).
  assert (X : In w (report_groups sgn report)).
  { rewrite R. apply in_or_app. left. unfold words_of_result. apply in_flat_map. exists i. auto. }
  unfold report_groups in X. destruct (cut_part _ _ _ _ X) as (a & b & C). destruct (before_end_part report) as (e & Ee).
  exists a, (b ++ e). rewrite Ee, <- !app_assoc_s. cbn [append] in C. rewrite C, <- !app_assoc_s. reflexivity.
Qed.
Lemma raw_chars : forall sgn report limit r, parse sgn report limit = Ok r -> forall i c, In i (pr_groups r) -> Ascii.eqb c " " = false ->
  occurs c report = false -> occurs c (gi_rawString i) = false.
Proof.
  intros sgn report limit r E i c Hi N O. destruct (occurs c (gi_rawString i)) eqn:X; [|reflexivity].
  destruct (occurs_words c (gi_rawString i) "" N X) as (w & W & Ow). destruct (word_part _ _ _ _ E _ _ Hi W) as (a & b & ->).
  rewrite !occurs_app, Ow in O. rewrite orb_true_r in O. discriminate O.
Qed.
Lemma prefix_app : forall p a b, prefix p a = true -> prefix p (a ++ b) = true.
Proof.
  induction p as [|c p IH]; intros a b H; [destruct (a ++ b); reflexivity|]. destruct a as [|d a]; [discriminate H|]. cbn [prefix append] in *.
  destruct (ascii_dec c d); [exact (IH _ _ H)|discriminate H].
Qed.
Lemma mentions_eq : forall p s, mentions p s = prefix p s || match s with EmptyString => false | String _ t => mentions p t end.
Proof. intros p []; reflexivity. Qed.
Lemma mentions_app : forall p a w b, mentions p w = true -> mentions p (a ++ w ++ b) = true.
Proof.
  intros p a w b H. induction a as [|c a IH].
  - cbn [append]. induction w as [|c w IH]; rewrite mentions_eq in H; rewrite mentions_eq; apply orb_prop in H; destruct H as [H|H].
    + rewrite (prefix_app _ _ b H). reflexivity.
    + discriminate H.
    + rewrite (prefix_app _ _ b H). reflexivity.
    + cbn [append]. rewrite (IH H). apply orb_true_r.
  - cbn [append]. rewrite mentions_eq, IH. apply orb_true_r.
Qed.
Lemma mentions_prefix : forall p b, mentions p (p ++ b) = true.
Proof. intros p b. rewrite mentions_eq. replace (prefix p (p ++ b)) with true; [reflexivity|]. induction p as [|c p IH]; [destruct b; reflexivity|]. cbn. destruct (ascii_dec c c); [exact IH|congruence]. Qed.

(** ** Every group *)
Lemma location_tame : forall s, fits location_form s = true -> tame s = true.
Proof.
  intros s F. apply safe_tame.
  assert (L : forall c, letter c = true -> safe c = true) by (intros c H; destruct c as [[] [] [] [] [] [] [] []]; try reflexivity; discriminate H).
  assert (D : forall c, letter_or_digit c = true -> safe c = true) by (intros c H; destruct c as [[] [] [] [] [] [] [] []]; try reflexivity; discriminate H).
  unfold location_form in F. destruct s as [|a [|b [|c [|d [|]]]]]; cbn [fits] in F; rewrite ?andb_false_r in F; try discriminate F.
  repeat (apply andb_prop in F; destruct F as [? F]). cbn [safe_all]. rewrite L, !D by assumption. reflexivity.
Qed.
Definition says (pow : flt -> flt -> flt) (i : GroupInfo) : res string :=
  Visitor_visit (Ok "") (VisitorExplain pow) (gi_group i) (gi_reportPart i) (gi_rawString i).
Lemma explained : forall pow sgn report limit r, pow_tame pow -> parse sgn report limit = Ok r -> forall i, In i (pr_groups r) ->
  clean (says pow i)
  \/ unnamed_runway (gi_group i) /\ says pow i = Bad Throw
  \/ (exists u, gi_group i = GUnknown u) /\ says pow i = Ok ("Not recognised by parser: " ++ gi_rawString i).
Proof.
  intros pow sgn report limit r P E i Hi. pose proof (parse_reachable _ _ _ _ _ E Hi) as R. pose proof (result_good2 _ _ _ _ E i Hi) as G.
  pose proof (fun l => Pf_Type.result_location _ _ _ _ i l E Hi) as Lo.
  destruct i as [g part raw]. cbn [gi_group gi_reportPart gi_rawString] in *. unfold says. cbn [gi_group gi_reportPart gi_rawString].
  assert (N : (exists c, g = GCloud c) \/ (exists v, g = GVicinity v) \/ raw <> "").
  { destruct G as [(_ & _ & [K|K])|[K _]]; auto. }
  destruct g; cbn [Visitor_visit Visitor_calls VisitorExplain];
    try (assert (N' : raw <> "") by (destruct N as [(? & N)|[(? & N)|N]]; [discriminate N|discriminate N|exact N])).
  - left. apply ex_keyword.
  - left. apply ex_location. destruct (Lo _ eq_refl) as (_ & F & ->). exact (location_tame _ F).
  - left. apply ex_time.
  - left. eapply ex_trend. eapply Pf_Trend.result_trend; eassumption.
  - left. eapply ex_wind; [exact R|]. eapply Pf_WindWords.result_wind; eassumption.
  - destruct (vi_rw g) eqn:Rw.
    + left. eapply ex_visibility; [exact R|eapply Pf_Visibility.result_visibility; eassumption|congruence].
    + destruct (ViType_beq (vi_type g) Vi_VARIABLE_RVR) eqn:T.
      * right. left. apply internal_ViType_dec_bl in T. split; [exists g; auto|apply ex_visibility_throws; assumption].
      * left. eapply ex_visibility; [exact R|eapply Pf_Visibility.result_visibility; eassumption|]. intros X. rewrite X in T. discriminate T.
  - left. apply ex_cloud, R.
  - left. apply ex_weather, R.
  - left. apply ex_temperature; assumption.
  - left. apply ex_pressure.
  - left. apply ex_runway.
  - left. apply ex_sea.
  - left. eapply ex_minmax. eapply Pf_MinMax.result_minmax; eassumption.
  - left. apply ex_precipitation.
  - left. apply ex_layer, R.
  - left. apply ex_tendency.
  - left. apply ex_types, R.
  - left. apply ex_lmh.
  - left. apply ex_lightning, R.
  - left. apply ex_vicinity, R.
  - left. eapply ex_misc. eapply Pf_Miscs.result_misc; eassumption.
  - right. right. split; [eauto|]. unfold visit_Unknown. cbn. rewrite app_empty_r. reflexivity.
Qed.

(** ** The table *)
Lemma rows_ok : forall pow l texts, Forall2 (fun i x => says pow i = Ok x) l texts ->
  explain_rows pow l = Ok (all_rows (combine (map gi_rawString l) (map with_breaks texts))).
Proof.
  intros pow l texts H. induction H as [|i x l texts H F IH]; [reflexivity|]. cbn [explain_rows map combine all_rows]. unfold says in H. rewrite H.
  cbn [bind]. rewrite breaks_made, IH. cbn [put say bind]. unfold row. cbn [fst snd]. rewrite !app_assoc_s, app_empty_r. reflexivity.
Qed.
Lemma rows_throw : forall pow l, (forall i, In i l -> (exists x, says pow i = Ok x) \/ says pow i = Bad Throw) ->
  (exists i, In i l /\ says pow i = Bad Throw) -> explain_rows pow l = Bad Throw.
Proof.
  intros pow l. induction l as [|i l IH]; intros A (j & Hj & J); [contradiction|]. cbn [explain_rows].
  destruct (A i (or_introl eq_refl)) as [(x & X)|X]; unfold says in X; rewrite X; [|reflexivity].
  cbn [bind]. rewrite breaks_made. destruct Hj as [<-|Hj]; [unfold says in J; rewrite J in X; discriminate X|].
  rewrite IH; [reflexivity|intros k K; apply A; right; exact K|exists j; auto].
Qed.
Lemma table_ok : forall pow sgn input p texts, parse sgn input default_groupLimit = Ok p ->
  Forall2 (fun i x => says pow i = Ok x) (pr_groups p) texts -> explain pow sgn input = Ok (table (report_rows p texts)).
Proof.
  intros pow sgn input p texts E F. unfold explain. rewrite E. cbn [bind]. rewrite (rows_ok _ _ _ F). unfold report_rows, table.
  assert (X : forall e, error_text e = if ReportError_beq e RE_NONE then None else Some (reportErrorToString e)) by (intros []; reflexivity). rewrite X.
  destruct (ReportError_beq _ RE_NONE); cbn [negb when put say bind app all_rows]; unfold row; cbn [fst snd]; rewrite ?app_assoc_s, ?app_empty_r; cbn [append]; rewrite ?app_assoc_s; reflexivity.
Qed.
Lemma table_throws : forall pow sgn input p, parse sgn input default_groupLimit = Ok p ->
  explain_rows pow (pr_groups p) = Bad Throw -> explain pow sgn input = Bad Throw.
Proof.
  intros pow sgn input p E F. unfold explain. rewrite E. cbn [bind]. rewrite F. destruct (ReportError_beq _ RE_NONE); reflexivity.
Qed.
Lemma all_or_throw : forall pow l, (forall i, In i l -> (exists x, says pow i = Ok x) \/ unnamed_runway (gi_group i) /\ says pow i = Bad Throw) ->
  (exists texts, Forall2 (fun i x => says pow i = Ok x) l texts) \/ (exists i, In i l /\ unnamed_runway (gi_group i) /\ says pow i = Bad Throw).
Proof.
  intros pow l. induction l as [|i l IH]; intros A; [left; exists []; constructor|].
  destruct (A i (or_introl eq_refl)) as [(x & X)|X]; [|right; exists i; split; [left; reflexivity|exact X]].
  destruct IH as [(t & T)|(j & J & K)]; [intros k K; apply A; right; exact K|left; exists (x :: t); constructor; assumption|right; exists j; split; [right; exact J|exact K]].
Qed.
Lemma throws_unnamed : forall pow i, unnamed_runway (gi_group i) -> says pow i = Bad Throw.
Proof.
  intros pow [g part raw] (v & G & T & R). cbn [gi_group] in G. subst g. unfold says. cbn [gi_group gi_reportPart gi_rawString Visitor_visit Visitor_calls VisitorExplain].
  apply ex_visibility_throws; assumption.
Qed.
Theorem explain_outcome : forall pow, pow_tame pow -> forall sgn input p, parse sgn input default_groupLimit = Ok p ->
  (~ names_no_runway p /\ exists t, explain pow sgn input = Ok t) \/ (names_no_runway p /\ explain pow sgn input = Bad Throw).
Proof.
  intros pow P sgn input p E.
  assert (A : forall i, In i (pr_groups p) -> (exists x, says pow i = Ok x) \/ unnamed_runway (gi_group i) /\ says pow i = Bad Throw).
  { intros i Hi. destruct (explained _ _ _ _ _ P E i Hi) as [(s & S & _)|[H|[_ H]]]; eauto. }
  destruct (all_or_throw _ _ A) as [(texts & T)|(i & Hi & U & X)].
  - left. split; [|eexists; exact (table_ok _ _ _ _ _ E T)]. intros (i & Hi & U). apply (throws_unnamed pow) in U.
    clear - T Hi U. induction T; [contradiction|]. destruct Hi as [->|Hi]; [rewrite H in U; discriminate U|auto].
  - right. split; [exists i; auto|]. apply (table_throws _ _ _ _ E). apply rows_throw; [|exists i; auto].
    intros j J. destruct (A j J) as [H|[_ H]]; auto.
Qed.
Theorem explain_returns : forall pow, pow_tame pow -> forall sgn input, mentions "R///////V" input = false -> exists t, explain pow sgn input = Ok t.
Proof.
  intros pow P sgn input M. destruct (parse_returns sgn input default_groupLimit) as (p & E).
  destruct (explain_outcome pow P sgn input p E) as [[_ H]|[(i & Hi & v & G & T & R) _]]; [exact H|exfalso].
  destruct (result_good2 _ _ _ _ E i Hi) as [(_ & _ & [(c & K)|(c & K)])|[N _]]; try (rewrite G in K; discriminate K).
  destruct i as [g part raw]. cbn [gi_group gi_rawString] in *. subst g.
  pose proof (Pf_Visibility.result_visibility _ _ _ _ E _ _ _ Hi N) as V. unfold seen_by in V. rewrite T, R in V.
  assert (X : exists y, words_of raw = ["R///////V" ++ y]).
  { remember (Sight _ _ _ _ _ _ _ _) as s eqn:Es. remember (words_of raw) as ws. destruct V; try discriminate Es;
      try (match goal with q : place |- _ => destruct q; discriminate Es end).
    - match goal with X : Runway_range _ _ |- _ => destruct X; try discriminate Es end. eexists; reflexivity.
    - match goal with X : In (_, _) [_; _] |- _ => cbn in X; destruct X as [X|[X|[]]]; injection X as <- <-; discriminate Es end.
    - match goal with X : In (_, _) [_; _] |- _ => cbn in X; destruct X as [X|[X|[]]]; injection X as <- <-; discriminate Es end. }
  destruct X as (y & X). destruct (word_part _ _ _ _ E _ ("R///////V" ++ y) Hi) as (a & b & ->); [cbn [gi_rawString]; rewrite X; left; reflexivity|].
  rewrite mentions_app in M; [discriminate M|apply mentions_prefix].
Qed.

Theorem explain_table : forall pow, pow_tame pow -> forall sgn input t, explain pow sgn input = Ok t ->
  exists p texts, parse sgn input default_groupLimit = Ok p
    /\ Forall2 (fun i x => Visitor_visitInfo (Ok "") (VisitorExplain pow) i = Ok x) (pr_groups p) texts
    /\ t = table (report_rows p texts).
Proof.
  intros pow P sgn input t H. destruct (parse_returns sgn input default_groupLimit) as (p & E). exists p.
  assert (A : forall i, In i (pr_groups p) -> (exists x, says pow i = Ok x) \/ unnamed_runway (gi_group i) /\ says pow i = Bad Throw).
  { intros i Hi. destruct (explained _ _ _ _ _ P E i Hi) as [(s & S & _)|[X|[_ X]]]; eauto. }
  destruct (all_or_throw _ _ A) as [(texts & T)|(i & Hi & U & X)].
  - exists texts. split; [exact E|]. split; [exact T|]. rewrite (table_ok _ _ _ _ _ E T) in H. injection H as <-. reflexivity.
  - destruct (explain_outcome pow P sgn input p E) as [[N _]|[_ N]]; [destruct N; exists i; auto|rewrite N in H; discriminate H].
Qed.

Lemma ok_same : forall (A : Type) (a b : A), Ok a = Ok b -> a = b.
Proof. intros A a b H. injection H as <-. reflexivity. Qed.
(** ** Without markup and brackets *)
Lemma tame_no_tag : forall s, tame s = true -> occurs "<" s = false.
Proof.
  induction s as [|c s IH]; intros H; [reflexivity|]. cbn [tame occurs] in *. apply andb_prop in H. destruct H as [A B].
  apply andb_prop in A. destruct A as [A _]. rewrite Ascii.eqb_sym. apply negb_true_iff in A. rewrite A, (IH B). reflexivity.
Qed.
Theorem no_markup : forall pow, pow_tame pow -> forall sgn input p, parse sgn input default_groupLimit = Ok p -> occurs "<" input = false ->
  forall i x, In i (pr_groups p) -> Visitor_visitInfo (Ok "") (VisitorExplain pow) i = Ok x -> occurs "<" (gi_rawString i) = false /\ occurs "<" x = false.
Proof.
  intros pow P sgn input p E O i x Hi X. change (says pow i = Ok x) in X.
  assert (R : occurs "<" (gi_rawString i) = false) by (eapply raw_chars; [exact E|exact Hi|reflexivity|exact O]). split; [exact R|].
  destruct (explained _ _ _ _ _ P E i Hi) as [(s & S & T)|[[_ S]|[_ S]]]; rewrite S in X; try discriminate X; apply ok_same in X; subst x.
  - exact (tame_no_tag _ T).
  - rewrite occurs_app, R. reflexivity.
Qed.
(** Every bracket opens "[r" *)
Fixpoint fixed (s : string) : bool :=
  match s with
  | EmptyString => true
  | String c t => (negb (Ascii.eqb c "[") || match t with String d _ => Ascii.eqb d "r" | EmptyString => false end) && fixed t
  end.
Lemma tame_fixed : forall s, tame s = true -> fixed s = true.
Proof.
  induction s as [|c s IH]; intros H; [reflexivity|]. cbn [tame fixed] in *. apply andb_prop in H. destruct H as [A B].
  apply andb_prop in A. destruct A as [_ A]. rewrite A, (IH B). reflexivity.
Qed.
Lemma fixed_app : forall a b, fixed a = true -> fixed b = true -> fixed (a ++ b) = true.
Proof.
  induction a as [|c a IH]; intros b A B; [exact B|]. cbn [append fixed] in *. apply andb_prop in A. destruct A as [A1 A2].
  rewrite (IH _ A2 B), andb_true_r. destruct (Ascii.eqb c "["); [|reflexivity]. destruct a; [discriminate A1|exact A1].
Qed.
Lemma plain_fixed : forall s, occurs "[" s = false -> fixed s = true.
Proof.
  induction s as [|c s IH]; intros H; [reflexivity|]. cbn [occurs fixed] in *. apply orb_false_iff in H. destruct H as [A B].
  rewrite Ascii.eqb_sym, A, (IH B). reflexivity.
Qed.
Lemma breaks_fixed : forall s, fixed s = true -> fixed (with_breaks s) = true.
Proof.
  induction s as [|c s IH]; intros H; [reflexivity|]. cbn [fixed with_breaks] in *. apply andb_prop in H. destruct H as [A B]. specialize (IH B).
  destruct (Ascii.eqb c "010"); [apply fixed_app; [reflexivity|exact IH]|]. cbn [append fixed]. rewrite IH, andb_true_r.
  destruct (Ascii.eqb c "["); [|reflexivity]. destruct s as [|d s]; [discriminate A|]. cbn [negb orb] in A. apply Ascii.eqb_eq in A. subst d. reflexivity.
Qed.
Lemma fixed_unable : forall s, fixed s = true -> mentions "[unable" s = false.
Proof.
  induction s as [|c s IH]; intros H; [reflexivity|]. rewrite mentions_eq. cbn [fixed] in H. apply andb_prop in H. destruct H as [A B]. rewrite (IH B), orb_false_r.
  cbn [prefix]. destruct (ascii_dec "[" c) as [<-|]; [|reflexivity]. cbn in A. destruct s as [|d s]; [discriminate A|]. apply Ascii.eqb_eq in A. subst d. reflexivity.
Qed.
Lemma rows_fixed : forall l, (forall r, In r l -> fixed (fst r) = true /\ fixed (snd r) = true) -> fixed (all_rows l) = true.
Proof.
  induction l as [|r l IH]; intros H; [reflexivity|]. cbn [all_rows]. apply fixed_app; [|apply IH; intros q Q; apply H; right; exact Q].
  destruct (H r (or_introl eq_refl)) as [A B]. unfold row. repeat (apply fixed_app; try reflexivity; try assumption).
Qed.
Theorem no_unable : forall pow, pow_tame pow -> forall sgn input t, explain pow sgn input = Ok t -> occurs "[" input = false -> mentions "[unable" t = false.
Proof.
  intros pow P sgn input t H O. destruct (explain_table pow P sgn input t H) as (p & texts & E & T & ->). apply fixed_unable.
  assert (A : forall i x, In i (pr_groups p) -> says pow i = Ok x -> fixed (gi_rawString i) = true /\ fixed (with_breaks x) = true).
  { intros i x Hi X. assert (R : fixed (gi_rawString i) = true) by (apply plain_fixed; eapply raw_chars; [exact E|exact Hi|reflexivity|exact O]).
    split; [exact R|apply breaks_fixed].
    destruct (explained _ _ _ _ _ P E i Hi) as [(s & S & Ts)|[[_ S]|[_ S]]]; rewrite S in X; try discriminate X; apply ok_same in X; subst x.
    - exact (tame_fixed _ Ts).
    - apply fixed_app; [reflexivity|exact R]. }
  unfold table. apply fixed_app; [reflexivity|]. apply fixed_app; [|reflexivity]. unfold report_rows.
  apply rows_fixed. intros r [<-|R].
  - split; [reflexivity|]. cbn [snd]. apply fixed_app; [reflexivity|]. destruct (md_type _); reflexivity.
  - apply in_app_or in R. destruct R as [R|R].
    + destruct (md_error (pr_metadata p)); cbn in R; try contradiction; destruct R as [<-|[]]; split; reflexivity.
    + clear E H. induction T as [|i x l texts X T IH]; [contradiction|]. cbn [map combine In] in R. destruct R as [<-|R].
      * cbn [fst snd]. apply A; [left; reflexivity|exact X].
      * apply IH; [|exact R]. intros j y J Y. apply A; [right; exact J|exact Y].
Qed.
