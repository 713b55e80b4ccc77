(** What the archives of the performance program hold, for C89 to C96. *)
From Coq Require Import List String Ascii NArith Bool Arith Lia.
From Verif Require Import Prim Lib Groups1 Parser SpecTokens SpecReads SpecText SpecExplain Pf_ExText Pf_Tokens Pf_Steps Pf_ExTable Pf_Total.
From Verif Require Import Performance SpecPerformance Pf_PerfBatch.
Import ListNotations.
Local Open Scope string_scope.

(** ** The texts of groups have no line ends *)

Lemma occurs_in : forall c s, In c (list_ascii_of_string s) -> occurs c s = true.
Proof.
  intros c. induction s as [|d s IH]; intros I; [destruct I|]. cbn [list_ascii_of_string occurs] in *. destruct I as [-> |I].
  - rewrite Ascii.eqb_refl. reflexivity.
  - rewrite (IH I), orb_true_r. reflexivity.
Qed.
Lemma all_chars_no : forall (P : ascii -> Prop) c s, ~ P c -> all_chars P s -> occurs c s = false.
Proof.
  intros P c s N. induction s as [|d s IH]; intros A; [reflexivity|]. cbn [all_chars occurs] in *. destruct A as [A B].
  rewrite (IH B), orb_false_r. apply Ascii.eqb_neq. intros E. subst. exact (N A).
Qed.
Lemma group_text_no_nl : forall sgn w, group_text sgn w -> occurs newline w = false.
Proof.
  intros sgn w (f & m & l & -> & L & D & _ & M).
  assert (X : delimiter sgn newline = true) by (destruct sgn; reflexivity).
  cbn [occurs]. rewrite occurs_app. rewrite (all_chars_no (inner sgn) newline m).
  - assert (A : Ascii.eqb newline f = false) by (apply Ascii.eqb_neq; intros E; subst; congruence).
    rewrite A. destruct L as [-> | ->]; reflexivity.
  - intros (E & _). congruence.
  - exact M.
Qed.
Lemma raw_one_line : forall sgn report limit r, parse sgn report limit = Ok r ->
  forall gi, In gi (pr_groups r) -> one_line (gi_rawString gi).
Proof.
  intros sgn report limit r E gi I J. apply occurs_in in J.
  destruct (occurs_words newline (gi_rawString gi) "" eq_refl J) as (w & W & O).
  destruct (raw_text_conserved _ _ _ _ E) as (rest & R & _).
  assert (X : In w (report_groups sgn report)).
  { rewrite R. apply in_or_app. left. unfold words_of_result. apply in_flat_map. exists gi. split; [exact I|exact W]. }
  pose proof (report_groups_shape sgn report) as S. rewrite Forall_forall in S.
  rewrite (group_text_no_nl _ _ (S w X)) in O. discriminate.
Qed.
Lemma groups_one_line : forall sgn report gi, In gi (groups_of sgn report) -> one_line (gi_rawString gi).
Proof.
  intros sgn report gi I. unfold groups_of in I. destruct (parse sgn report default_groupLimit) as [r|e] eqn:E; [|destruct I].
  exact (raw_one_line _ _ _ _ E _ I).
Qed.
Lemma errors_one_line : forall e, one_line (reportErrorName e).
Proof.
  intros e H. apply occurs_in in H. destruct e; vm_compute in H; discriminate.
Qed.

(** ** One archive *)

Definition in_files (files : bool) (a : Archive) : Prop :=
  match a with ArchiveToMemory _ => files = false | ArchiveToFile _ _ => files = true end.

Lemma back_is : forall s, s <> "" -> exists c r, string_back s = Ok c /\ s = r ++ String c "".
Proof.
  intros s N. unfold string_back. destruct (slen s) as [|n] eqn:L; [destruct s; [congruence|discriminate]|].
  revert n L N. induction s as [|c s IH]; intros n L N; [congruence|]. unfold slen in L. cbn [String.length] in L. injection L as L.
  destruct n as [|n].
  - destruct s; [|discriminate]. exists c, "". split; reflexivity.
  - destruct (IH n L ltac:(intros ->; discriminate)) as (d & r & E & ->). exists d, (String c r). split; [|reflexivity].
    unfold sget in *. cbn [String.get append]. cbn [append] in E. destruct (String.get n (r ++ String d "")) as [x|] eqn:G; [exact E|].
    unfold slen in *. cbn [String.length]. rewrite L in *. rewrite (proj2 (Nat.eqb_neq n (S n))) in E by lia. discriminate.
Qed.
Lemma one_line_end : forall r c, one_line (r ++ String c "") -> c <> newline.
Proof.
  intros r c O ->. apply O. induction r as [|d r IH]; [left; reflexivity|]. right. apply IH. intros I. apply O. right. exact I.
Qed.
Lemma add_holds : forall files a l s a', in_files files a -> holds a l -> (files = true -> one_line s) ->
  (files = true -> forall x, In x l -> one_line x) -> Archive_add a s = Ok a' -> holds a' (l ++ [s]) /\ in_files files a'.
Proof.
  intros files a l s a' F H O Ol E. destruct a as [st|f n]; cbn [Archive_add holds in_files] in *.
  - injection E as <-. subst st. split; [reflexivity|exact F].
  - destruct H as (-> & L & ->). destruct s as [|c s]; [discriminate|].
    destruct (back_is (String c s) ltac:(discriminate)) as (d & r & B & S). rewrite B in E. cbn [bind] in E.
    assert (N : Ascii.eqb d nl = false).
    { apply Ascii.eqb_neq. apply (one_line_end r). rewrite <- S. exact (O F). }
    rewrite N in E. injection E as <-. split; [|exact F]. cbn [holds].
    assert (T : text_of l ++ String c s ++ endl = text_of (l ++ [String c s])).
    { rewrite text_app, text_cons. reflexivity. }
    change (text_of l ++ String c (s ++ endl)) with (text_of l ++ String c s ++ endl).
    rewrite T. split; [reflexivity|]. split; [|rewrite app_length; cbn [List.length]; lia].
    apply text_lines. intros x I. apply in_app_or in I. destruct I as [I|[<- |[]]]; [exact (Ol F x I)|exact (O F)].
Qed.
Lemma add_returns : forall files a s, in_files files a -> (files = true -> s <> "") -> exists a', Archive_add a s = Ok a'.
Proof.
  intros files a s F N. destruct a as [st|f n]; cbn [Archive_add in_files] in *; [eexists; reflexivity|].
  destruct (back_is s (N F)) as (d & r & B & _). rewrite B. eexists. reflexivity.
Qed.

(** ** The archives *)

Lemma set_length : forall {A} (l : list A) i a, List.length (array_set l i a) = List.length l.
Proof. induction l as [|x l IH]; intros i a; [reflexivity|]. destruct i; cbn [array_set List.length]; [reflexivity|]. rewrite IH. reflexivity. Qed.
Lemma nth_set : forall {A} (l : list A) i j a, i < List.length l ->
  nth_error (array_set l i a) j = if Nat.eqb i j then Some a else nth_error l j.
Proof.
  induction l as [|x l IH]; intros i j a L; cbn [List.length] in L; [lia|]. destruct i, j; cbn [array_set nth_error Nat.eqb]; try reflexivity.
  apply IH. lia.
Qed.
Lemma set_Forall : forall {A} (P : A -> Prop) l i a, Forall P l -> P a -> Forall P (array_set l i a).
Proof.
  induction l as [|x l IH]; intros i a F H; [constructor|]. inversion F; subst. destruct i; cbn [array_set]; constructor; auto.
Qed.

Definition part_no (p : ReportPart) : nat :=
  match p with RP_UNKNOWN => 0 | RP_HEADER => 1 | RP_METAR => 2 | RP_TAF => 3 | RP_RMK => 4 end.
Lemma part_no_lt : forall p, part_no p < 5.
Proof. destruct p; cbn; lia. Qed.
Lemma part_no_inj : forall p q, part_no p = part_no q -> p = q.
Proof. destruct p, q; cbn; intros E; try reflexivity; discriminate. Qed.
Lemma index_lt : forall g, Group_index g < 22.
Proof. destruct g; cbn; lia. Qed.
Lemma beq_part : forall p q, ReportPart_beq p q = true <-> p = q.
Proof. destruct p, q; cbn; split; intros E; try reflexivity; discriminate. Qed.

(** The archives hold [T kind part], the errors [E] *)
Record Holds (files : bool) (ar : Archiver) (E : list string) (T : nat -> ReportPart -> list string) : Prop := mkHolds
  { h_errors : holds (errorReports ar) E;
    h_groups : forall kind part, kind < 22 -> exists a, archive_of ar kind part = Some a /\ holds a (T kind part);
    h_efile : in_files files (errorReports ar);
    h_gfile : Forall (in_files files) (archives ar);
    h_length : List.length (archives ar) = 110;
    h_eline : files = true -> forall x, In x E -> one_line x;
    h_gline : files = true -> forall kind part x, In x (T kind part) -> one_line x }.

Definition is_of (kind : nat) (part : ReportPart) (gi : GroupInfo) : bool :=
  Nat.eqb (Group_index (gi_group gi)) kind && ReportPart_beq (gi_reportPart gi) part.
Definition texts_in (kind : nat) (part : ReportPart) (gis : list GroupInfo) : list string :=
  map gi_rawString (filter (is_of kind part) gis).
Definition more (T : nat -> ReportPart -> list string) (gis : list GroupInfo) : nat -> ReportPart -> list string :=
  fun kind part => (T kind part ++ texts_in kind part gis)%list.

Lemma Holds_ext : forall files ar E T T', (forall k p, T k p = T' k p) -> Holds files ar E T -> Holds files ar E T'.
Proof.
  intros files ar E T T' X [A B C D F G H]. constructor; try assumption.
  - intros k p L. rewrite <- X. exact (B k p L).
  - intros Y k p x I. rewrite <- X in I. exact (H Y k p x I).
Qed.
Lemma Holds_new : forall files, Holds files (Archiver_new files) [] (fun _ _ => []).
Proof.
  intros files. unfold Archiver_new. constructor; cbn [errorReports archives].
  - destruct files; [cbn [holds]; repeat split|reflexivity].
  - intros kind part L. exists (if files then ArchiveToFile "" 0 else ArchiveToMemory []). split.
    + unfold archive_of. cbn [archives]. apply nth_error_repeat. fold (part_no part). pose proof (part_no_lt part).
      unfold groupKinds, reportPartSize. change (22 * 5) with 110. lia.
    + destruct files; [cbn [holds]; repeat split|reflexivity].
  - destruct files; reflexivity.
  - apply Forall_forall. intros x I. apply repeat_spec in I. subst. destruct files; reflexivity.
  - apply repeat_length.
  - intros _ x [].
  - intros _ k p x [].
Qed.

Lemma group_holds : forall files ar E T gi ar', Holds files ar E T -> one_line (gi_rawString gi) ->
  addGroup ar gi = Ok ar' -> Holds files ar' E (more T [gi]).
Proof.
  intros files ar E T gi ar' H O X. unfold addGroup in X.
  set (idx := groupIndex (Group_index (gi_group gi)) (reportPartIndex (gi_reportPart gi))) in X.
  assert (I : idx = Group_index (gi_group gi) * 5 + part_no (gi_reportPart gi)) by (destruct (gi_reportPart gi); reflexivity).
  pose proof (index_lt (gi_group gi)) as L. pose proof (part_no_lt (gi_reportPart gi)) as Lp.
  destruct (h_groups _ _ _ _ H (Group_index (gi_group gi)) (gi_reportPart gi) L) as (a & A & Ha).
  unfold archive_of in A. fold (part_no (gi_reportPart gi)) in A. rewrite <- I in A.
  unfold array_at in X. rewrite A in X. cbn [bind] in X.
  destruct (Archive_add a (gi_rawString gi)) as [a'|e] eqn:Y; [|discriminate]. cbn [bind] in X. apply ok_same in X. subst ar'.
  assert (F : in_files files a).
  { pose proof (h_gfile _ _ _ _ H) as G. rewrite Forall_forall in G. apply G. exact (nth_error_In _ _ A). }
  destruct (add_holds _ _ _ _ _ F Ha (fun _ => O) (fun f x J => h_gline _ _ _ _ H f _ _ x J) Y) as [Ha' F'].
  assert (Li : idx < List.length (archives ar)) by (rewrite (h_length _ _ _ _ H); lia).
  assert (TI : forall k p x, In x (more T [gi] k p) -> In x (T k p) \/ x = gi_rawString gi).
  { intros k p x J. unfold more, texts_in in J. apply in_app_or in J. destruct J as [J|J]; [left; exact J|right].
    cbn [filter] in J. destruct (is_of k p gi); [|destruct J]. destruct J as [<- |[]]. reflexivity. }
  constructor; cbn [errorReports archives].
  - exact (h_errors _ _ _ _ H).
  - intros kind part K. unfold archive_of. cbn [archives]. fold (part_no part). rewrite nth_set by exact Li.
    pose proof (part_no_lt part) as Lq. destruct (Nat.eqb idx (kind * 5 + part_no part)) eqn:Q.
    + apply Nat.eqb_eq in Q. rewrite I in Q. assert (Group_index (gi_group gi) = kind) as <- by lia.
      assert (gi_reportPart gi = part) as <- by (apply part_no_inj; lia). exists a'. split; [reflexivity|].
      unfold more, texts_in. cbn [filter]. unfold is_of. rewrite Nat.eqb_refl, (proj2 (beq_part _ _) eq_refl). exact Ha'.
    + apply Nat.eqb_neq in Q. destruct (h_groups _ _ _ _ H kind part K) as (b & B & Hb). exists b. split; [exact B|].
      unfold more, texts_in. cbn [filter]. replace (is_of kind part gi) with false.
      * cbn [map]. rewrite app_nil_r. exact Hb.
      * symmetry. unfold is_of. destruct (Nat.eqb (Group_index (gi_group gi)) kind) eqn:Q1; [|reflexivity].
        apply Nat.eqb_eq in Q1. destruct (ReportPart_beq (gi_reportPart gi) part) eqn:Q2; [|reflexivity].
        apply beq_part in Q2. exfalso. apply Q. rewrite I, Q1, Q2. reflexivity.
  - exact (h_efile _ _ _ _ H).
  - apply set_Forall; [exact (h_gfile _ _ _ _ H)|exact F'].
  - rewrite set_length. exact (h_length _ _ _ _ H).
  - exact (h_eline _ _ _ _ H).
  - intros f k p x J. destruct (TI k p x J) as [J'| ->]; [exact (h_gline _ _ _ _ H f k p x J')|exact O].
Qed.
Lemma more_cons : forall T gi gis k p, more (more T [gi]) gis k p = more T (gi :: gis) k p.
Proof.
  intros T gi gis k p. unfold more, texts_in. cbn [filter]. destruct (is_of k p gi); cbn [map app].
  - rewrite <- app_assoc. reflexivity.
  - rewrite app_nil_r. reflexivity.
Qed.
Lemma groups_hold : forall files gis ar E T ar', Holds files ar E T -> (forall gi, In gi gis -> one_line (gi_rawString gi)) ->
  addGroups ar gis = Ok ar' -> Holds files ar' E (more T gis).
Proof.
  intros files. induction gis as [|gi gis IH]; intros ar E T ar' H O X; cbn [addGroups] in X.
  - apply ok_same in X. subst. eapply Holds_ext; [|exact H]. intros k p. unfold more. cbn. rewrite app_nil_r. reflexivity.
  - destruct (addGroup ar gi) as [ar1|e] eqn:Y; [|discriminate]. cbn [bind] in X.
    pose proof (group_holds _ _ _ _ _ _ H (O gi (or_introl eq_refl)) Y) as H1.
    eapply Holds_ext; [|exact (IH _ _ _ _ H1 (fun g I => O g (or_intror I)) X)]. intros k p. apply more_cons.
Qed.
Lemma errors_hold : forall files ar E T e report ar', Holds files ar E T -> (files = true -> one_line report) ->
  addErrorReport ar e report = Ok ar' -> Holds files ar' (E ++ [reportErrorName e; report]) T.
Proof.
  intros files ar E T e report ar' H O X. unfold addErrorReport in X.
  destruct (Archive_add (errorReports ar) (reportErrorName e)) as [a|] eqn:A; [|discriminate]. cbn [bind] in X.
  destruct (Archive_add a report) as [a'|] eqn:B; [|discriminate]. cbn [bind] in X. apply ok_same in X. subst ar'.
  destruct (add_holds _ _ _ _ _ (h_efile _ _ _ _ H) (h_errors _ _ _ _ H) (fun _ => errors_one_line e) (h_eline _ _ _ _ H) A) as [H1 F1].
  assert (L1 : files = true -> forall x, In x (E ++ [reportErrorName e])%list -> one_line x).
  { intros f x I. apply in_app_or in I. destruct I as [I|[<- |[]]]; [exact (h_eline _ _ _ _ H f x I)|apply errors_one_line]. }
  destruct (add_holds _ _ _ _ _ F1 H1 O L1 B) as [H2 F2]. rewrite <- app_assoc in H2.
  destruct H as [h1 h2 h3 h4 h5 h6 h7]. constructor; cbn [errorReports archives]; try assumption.
  intros f x I. change ([reportErrorName e; report]) with ([reportErrorName e] ++ [report])%list in I.
  rewrite app_assoc in I. apply in_app_or in I. destruct I as [I|[<- |[]]]; [exact (L1 f x I)|exact (O f)].
Qed.

(** They return, unless an empty text is to be written to a file *)
Lemma group_returns : forall files ar E T gi, Holds files ar E T -> (files = true -> gi_rawString gi <> "") ->
  exists ar', addGroup ar gi = Ok ar'.
Proof.
  intros files ar E T gi H N. unfold addGroup.
  set (idx := groupIndex (Group_index (gi_group gi)) (reportPartIndex (gi_reportPart gi))).
  assert (I : idx = Group_index (gi_group gi) * 5 + part_no (gi_reportPart gi)) by (destruct (gi_reportPart gi); reflexivity).
  destruct (h_groups _ _ _ _ H (Group_index (gi_group gi)) (gi_reportPart gi) (index_lt _)) as (a & A & Ha).
  unfold archive_of in A. fold (part_no (gi_reportPart gi)) in A. rewrite <- I in A.
  unfold array_at. rewrite A. cbn [bind].
  assert (F : in_files files a).
  { pose proof (h_gfile _ _ _ _ H) as G. rewrite Forall_forall in G. apply G. exact (nth_error_In _ _ A). }
  destruct (add_returns _ _ _ F N) as (a' & ->). eexists. reflexivity.
Qed.
Lemma groups_return : forall files gis ar E T, Holds files ar E T -> (forall gi, In gi gis -> one_line (gi_rawString gi)) ->
  (files = true -> forall gi, In gi gis -> gi_rawString gi <> "") -> exists ar', addGroups ar gis = Ok ar'.
Proof.
  intros files. induction gis as [|gi gis IH]; intros ar E T H O N; cbn [addGroups]; [eexists; reflexivity|].
  destruct (group_returns _ _ _ _ gi H (fun f => N f gi (or_introl eq_refl))) as (ar1 & Y). rewrite Y. cbn [bind].
  exact (IH _ _ _ (group_holds _ _ _ _ _ _ H (O gi (or_introl eq_refl)) Y) (fun g I => O g (or_intror I)) (fun f g I => N f g (or_intror I))).
Qed.
Lemma errors_return : forall files ar E T e report, Holds files ar E T -> (files = true -> report <> "") ->
  exists ar', addErrorReport ar e report = Ok ar'.
Proof.
  intros files ar E T e report H N. unfold addErrorReport.
  assert (M : files = true -> reportErrorName e <> "") by (intros _; destruct e; discriminate).
  destruct (add_returns _ _ _ (h_efile _ _ _ _ H) M) as (a & A). rewrite A. cbn [bind].
  destruct (add_holds _ _ _ _ _ (h_efile _ _ _ _ H) (h_errors _ _ _ _ H) (fun _ => errors_one_line e) (h_eline _ _ _ _ H) A) as [_ F1].
  destruct (add_returns _ _ _ F1 N) as (a' & ->). eexists. reflexivity.
Qed.

(** ** Batches of reports *)

Lemma parsed : forall sgn report, exists p, parse sgn report default_groupLimit = Ok p /\
  groups_of sgn report = pr_groups p /\ error_of sgn report = md_error (pr_metadata p).
Proof.
  intros sgn report. destruct (parse_returns sgn report default_groupLimit) as (p & E). exists p. unfold groups_of, error_of. rewrite E. auto.
Qed.
Definition result_of (sgn : bool) (report : string) (p : ParseResult) : Prop := parse sgn report default_groupLimit = Ok p.
Lemma batch_parsed : forall sgn batch, exists ps, parse_batch sgn batch = Ok ps /\ Forall2 (result_of sgn) batch ps.
Proof.
  intros sgn. induction batch as [|report batch (ps & E & F)]; [exists []; split; [reflexivity|constructor]|].
  destruct (parsed sgn report) as (p & P & _). exists (p :: ps). cbn [parse_batch]. rewrite P. cbn [bind]. rewrite E. cbn [bind].
  split; [reflexivity|constructor; [exact P|exact F]].
Qed.

Definition added (sgn : bool) (T : nat -> ReportPart -> list string) (reports : list string) : nat -> ReportPart -> list string :=
  fun kind part => (T kind part ++ texts sgn kind part reports)%list.
Lemma texts_app : forall sgn k p a b, texts sgn k p (a ++ b) = (texts sgn k p a ++ texts sgn k p b)%list.
Proof. intros sgn k p a b. unfold texts. rewrite flat_map_app, filter_app, map_app. reflexivity. Qed.
Lemma failures_app : forall sgn a b, failures sgn (a ++ b) = (failures sgn a ++ failures sgn b)%list.
Proof. intros. unfold failures. apply flat_map_app. Qed.
Lemma texts_one : forall sgn k p report, texts sgn k p [report] = texts_in k p (groups_of sgn report).
Proof. intros. unfold texts, texts_in, is_of. cbn [flat_map]. rewrite app_nil_r. reflexivity. Qed.

Lemma archives_hold : forall sgn files batch ps ar E T ar', Forall2 (result_of sgn) batch ps -> Holds files ar E T ->
  (files = true -> forall x, In x batch -> one_line x) ->
  toArchives ps batch ar = Ok ar' -> Holds files ar' (E ++ failures sgn batch) (added sgn T batch).
Proof.
  intros sgn files batch ps ar E T ar' F. revert ar E T. induction F as [|report p batch ps P F IH]; intros ar E T H O X; cbn [toArchives] in X.
  - apply ok_same in X. subst. cbn [failures flat_map]. rewrite app_nil_r. eapply Holds_ext; [|exact H].
    intros k q. unfold added. cbn. rewrite app_nil_r. reflexivity.
  - unfold result_of in P.
    assert (G : groups_of sgn report = pr_groups p) by (unfold groups_of; rewrite P; reflexivity).
    assert (R : error_of sgn report = md_error (pr_metadata p)) by (unfold error_of; rewrite P; reflexivity).
    destruct (match md_error (pr_metadata p) with RE_NONE => Ok ar | e => addErrorReport ar e report end) as [ar1|] eqn:Y; [|discriminate].
    cbn [bind] in X. destruct (addResult ar1 p) as [ar2|] eqn:Z; [|discriminate]. cbn [bind] in X.
    assert (H1 : Holds files ar1 (E ++ failures sgn [report]) T).
    { cbn [failures flat_map]. rewrite R, app_nil_r. destruct (md_error (pr_metadata p));
        first [apply ok_same in Y; subst; rewrite app_nil_r; exact H
              |exact (errors_hold _ _ _ _ _ _ _ H (fun f => O f report (or_introl eq_refl)) Y)]. }
    pose proof (groups_hold _ _ _ _ _ _ H1 (raw_one_line _ _ _ _ P) Z) as H2.
    pose proof (IH _ _ _ H2 (fun f x I => O f x (or_intror I)) X) as H3.
    change (report :: batch) with ([report] ++ batch)%list. rewrite failures_app, app_assoc.
    eapply Holds_ext; [|exact H3]. intros k q. unfold added, more. rewrite texts_app, texts_one, G, app_assoc. reflexivity.
Qed.
Lemma archives_return : forall sgn files batch ps ar E T, Forall2 (result_of sgn) batch ps -> Holds files ar E T ->
  (files = true -> forall x, In x batch -> one_line x) -> (files = true -> forall x, In x batch -> can_be_kept sgn x) ->
  exists ar', toArchives ps batch ar = Ok ar'.
Proof.
  intros sgn files batch ps ar E T F. revert ar E T. induction F as [|report p batch ps P F IH]; intros ar E T H O C; cbn [toArchives];
    [eexists; reflexivity|]. unfold result_of in P.
  assert (G : groups_of sgn report = pr_groups p) by (unfold groups_of; rewrite P; reflexivity).
  assert (Y : exists ar1 E1, match md_error (pr_metadata p) with RE_NONE => Ok ar | e => addErrorReport ar e report end = Ok ar1
                          /\ Holds files ar1 E1 T).
  { assert (Z : forall e, exists ar1 E1, addErrorReport ar e report = Ok ar1 /\ Holds files ar1 E1 T).
    { intros e. destruct (errors_return _ _ _ _ e report H (fun f => proj1 (C f report (or_introl eq_refl)))) as (ar1 & Z).
      exists ar1. eexists. split; [exact Z|]. exact (errors_hold _ _ _ _ _ _ _ H (fun f => O f report (or_introl eq_refl)) Z). }
    destruct (md_error (pr_metadata p)); first [exact (Z _)|exists ar, E; split; [reflexivity|exact H]]. }
  destruct Y as (ar1 & E1 & -> & H1). cbn [bind].
  destruct (groups_return _ (pr_groups p) _ _ _ H1 (raw_one_line _ _ _ _ P)) as (ar2 & Z).
  { intros f gi I. rewrite <- G in I. exact (proj2 (C f report (or_introl eq_refl)) gi I). }
  unfold addResult. rewrite Z. cbn [bind].
  exact (IH _ _ _ (groups_hold _ _ _ _ _ _ H1 (raw_one_line _ _ _ _ P) Z) (fun f x I => O f x (or_intror I)) (fun f x I => C f x (or_intror I))).
Qed.
