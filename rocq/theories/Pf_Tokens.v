(** The tokenizer against its specification, and Parser::parse as a fold over the groups. *)
From Verif Require Import Prim Regex Float Values Weather Groups1 Groups2 Groups3 Groups4 Parser.
From Verif Require Import Lib SpecTokens SpecReads.
Local Open Scope string_scope.


Lemma le_space_spec : forall sgn c, delimiter sgn c = le_space sgn c.
Proof.
  intros sgn c; destruct sgn;
  destruct c as [b0 b1 b2 b3 b4 b5 b6 b7];
  destruct b0, b1, b2, b3, b4, b5, b6, b7; reflexivity.
Qed.

(** What the group loop finds in the text that follows the [n] characters already taken *)
Fixpoint scan (sgn : bool) (first : bool) (rest : string) : nat * bool :=
  match rest with
  | "" => (0, false)
  | String c r =>
    if le_space sgn c then (0, false) else
    if Ascii.eqb c "=" then (0, true) else
    if negb first && Ascii.eqb c "+" then (1, false) else
    let '(n, f) := scan sgn false r in (S n, f)
  end.

Lemma le_space_chr0 : forall sgn, le_space sgn chr0 = true.
Proof. intros []; reflexivity. Qed.

Lemma sget_rest : forall s p, p <= slen s ->
  sget s p = Ok (match sdrop p s with "" => chr0 | String c _ => c end).
Proof.
  intros s p H; destruct (sdrop p s) as [|c t] eqn:E.
  - assert (slen (sdrop p s) = 0) by (now rewrite E).
    rewrite sdrop_len in H0; replace p with (slen s) by slia; apply sget_end.
  - eapply sget_sdrop_cons; eauto.
Qed.

Lemma sdrop_cons_lt : forall p s c t, sdrop p s = String c t -> p < slen s.
Proof.
  intros p s c t H; assert (L : slen (sdrop p s) = S (slen t)) by (now rewrite H).
  rewrite sdrop_len in L; slia.
Qed.
Lemma sdrop_S : forall p s c t, sdrop p s = String c t -> sdrop (p + 1) s = t.
Proof. intros p s c t H; rewrite sdrop_add, H; reflexivity. Qed.

Lemma group_loop_scan : forall sgn report pos rest fuel groupLen,
  pos < slen report ->
  pos + groupLen <= slen report ->
  sdrop (pos + groupLen) report = rest ->
  slen rest < fuel ->
  group_loop sgn report fuel pos groupLen
  = Ok (groupLen + fst (scan sgn (Nat.eqb groupLen 0) rest),
        snd (scan sgn (Nat.eqb groupLen 0) rest)).
Proof.
  intros sgn report pos; induction rest as [|c r IH]; intros fuel groupLen Hp Hle Hd Hf;
    (destruct fuel as [|fuel]; [slia|]); cbn [group_loop scan];
    rewrite sget_rest by slia; rewrite Hd; cbn [bind].
  - rewrite le_space_chr0; cbn; now rewrite Nat.add_0_r.
  - destruct (le_space sgn c) eqn:Ec; cbn [negb].
    + cbn; now rewrite Nat.add_0_r.
    + rewrite (proj2 (Nat.leb_gt _ _) Hp); cbn [orb].
      destruct (Ascii.eqb c "=") eqn:Eq; [cbn; now rewrite Nat.add_0_r|].
      destruct (negb (Nat.eqb groupLen 0) && Ascii.eqb c "+") eqn:Ep.
      * reflexivity.
      * pose proof (sdrop_cons_lt _ _ _ _ Hd) as Hlt.
        rewrite IH.
        -- rewrite (proj2 (Nat.eqb_neq (groupLen + 1) 0)) by slia.
           destruct (scan sgn false r) as [n f]; cbn [fst snd].
           replace (groupLen + 1 + n) with (groupLen + S n) by slia; reflexivity.
        -- exact Hp.
        -- slia.
        -- rewrite Nat.add_assoc; eapply sdrop_S; eauto.
        -- slia.
Qed.

(** Skipping delimiters *)
Fixpoint skip (sgn : bool) (s : string) : nat :=
  match s with
  | "" => 0
  | String c r => if le_space sgn c then S (skip sgn r) else 0
  end.

Lemma skip_loop_skip : forall sgn report rest fuel pos,
  pos <= slen report -> sdrop pos report = rest -> slen rest < fuel ->
  skip_loop sgn report fuel pos
  = Ok (if Nat.eqb (skip sgn rest) (slen rest) then None else Some (pos + skip sgn rest)).
Proof.
  intros sgn report; induction rest as [|c r IH]; intros fuel pos Hp Hd Hf;
    (destruct fuel as [|fuel]; [slia|]); cbn [skip_loop skip slen String.length];
    rewrite sget_rest by slia; rewrite Hd; cbn [bind].
  - rewrite le_space_chr0.
    assert (L : slen (sdrop pos report) = 0) by (now rewrite Hd).
    rewrite sdrop_len in L.
    rewrite (proj2 (Nat.leb_le _ _)) by slia; reflexivity.
  - pose proof (sdrop_cons_lt _ _ _ _ Hd) as Hlt.
    destruct (le_space sgn c) eqn:Ec.
    + rewrite (proj2 (Nat.leb_gt _ _) Hlt).
      rewrite IH; [| slia | eapply sdrop_S; eauto | slia].
      cbn [Nat.eqb]. unfold slen. destruct (Nat.eqb (skip sgn r) (String.length r)); [reflexivity|].
      do 2 f_equal; slia.
    + cbn; now rewrite Nat.add_0_r.
Qed.

(** The groups still to be read at a position of the input *)
Definition groups_left (sgn : bool) (report : string) (i : ReportInput) : list string :=
  if in_finished i then [] else cut sgn "" (before_end_indicator (sdrop (in_pos i) report)).

Lemma cut_skip : forall sgn rest,
  cut sgn "" (before_end_indicator rest)
  = cut sgn "" (before_end_indicator (sdrop (skip sgn rest) rest)).
Proof.
  intros sgn; induction rest as [|c r IH]; cbn [skip]; [reflexivity|].
  destruct (le_space sgn c) eqn:Ec; [|reflexivity].
  cbn [sdrop before_end_indicator].
  rewrite <- IH.
  destruct (Ascii.eqb c "=") eqn:Eq.
  { apply Ascii.eqb_eq in Eq; subst c; destruct sgn; discriminate. }
  cbn [cut]; rewrite le_space_spec, Ec; reflexivity.
Qed.

Lemma skip_all : forall sgn rest, skip sgn rest = slen rest ->
  cut sgn "" (before_end_indicator rest) = [].
Proof.
  intros sgn rest H; rewrite cut_skip, H.
  assert (E : sdrop (slen rest) rest = "").
  { apply slen_zero; rewrite sdrop_len; slia. }
  now rewrite E.
Qed.

Lemma skip_le : forall sgn s, skip sgn s <= slen s.
Proof.
  induction s as [|c s IH]; cbn; [slia|]; unfold slen in *; destruct (le_space sgn c); cbn; slia.
Qed.

Lemma skip_stop : forall sgn s c t, sdrop (skip sgn s) s = String c t -> le_space sgn c = false.
Proof.
  intros sgn; induction s as [|d s IH]; intros c t H; cbn in H; [discriminate|].
  destruct (le_space sgn d) eqn:E; cbn in H; [eauto | inv H; exact E].
Qed.

Lemma eqb_empty_app : forall p c, String.eqb (p ++ String c "") "" = false.
Proof. intros [|d p] c; reflexivity. Qed.

Lemma cut_scan : forall sgn rest piece n f,
  scan sgn (String.eqb piece "") rest = (n, f) ->
  cut sgn piece (before_end_indicator rest)
  = (nonempty_piece (piece ++ substring 0 n rest)
     ++ (if f then [] else cut sgn "" (before_end_indicator (sdrop n rest))))%list.
Proof.
  intros sgn; induction rest as [|c r IH]; intros piece n f H; cbn [scan] in H.
  - inv H; cbn. rewrite app_empty_r, app_nil_r; reflexivity.
  - destruct (le_space sgn c) eqn:Ec.
    { inv H; cbn [substring sdrop before_end_indicator].
      destruct (Ascii.eqb c "=") eqn:Eq.
      { apply Ascii.eqb_eq in Eq; subst c; destruct sgn; discriminate. }
      cbn [cut]; rewrite le_space_spec, Ec, app_empty_r; reflexivity. }
    cbn [before_end_indicator].
    destruct (Ascii.eqb c "=") eqn:Eq.
    { inv H; cbn [substring cut]; rewrite app_empty_r, app_nil_r; reflexivity. }
    cbn [cut]; rewrite le_space_spec, Ec.
    rewrite andb_comm in H.
    destruct (Ascii.eqb c "+" && negb (String.eqb piece "")) eqn:Ep.
    { inv H. apply andb_true_iff in Ep; destruct Ep as [Ep En]; apply Ascii.eqb_eq in Ep; subst c.
      replace (substring 0 1 (String "+" r)) with "+" by (destruct r; reflexivity).
      cbn [sdrop].
      assert (X : nonempty_piece (piece ++ "+") = [(piece ++ "+")%string]) by (destruct piece; reflexivity).
      rewrite X; reflexivity. }
    destruct (scan sgn false r) as [n' f'] eqn:Es; inv H.
    rewrite (IH (piece ++ String c "") n' f).
    + cbn [substring sdrop]; rewrite app_assoc_s; reflexivity.
    + rewrite eqb_empty_app; exact Es.
Qed.

Lemma scan_le : forall sgn s b, fst (scan sgn b s) <= slen s.
Proof.
  intros sgn; induction s as [|c s IH]; intros b; cbn; [slia|].
  unfold slen in *; destruct (le_space sgn c); [cbn; slia|].
  destruct (Ascii.eqb c "="); [cbn; slia|].
  destruct (negb b && Ascii.eqb c "+"); [cbn; slia|].
  specialize (IH false); destruct (scan sgn false s) as [n f]; cbn in *; slia.
Qed.

(** Reading one group *)
Lemma getNextGroup_spec : forall sgn report i, in_pos i <= slen report ->
  exists s i', getNextGroup sgn report i = Ok (s, i') /\
    in_pos i <= in_pos i' <= slen report /\
    match groups_left sgn report i with
    | [] => s = "" 
    | t :: l => s = t /\ groups_left sgn report i' = l /\ t <> "" /\ in_pos i + slen t <= in_pos i'
    end.
Proof.
  intros sgn report i Hp; unfold getNextGroup, groups_left.
  destruct (in_finished i); [exists "", i; repeat split; slia|].
  set (rest := sdrop (in_pos i) report).
  assert (Lr : slen rest = slen report - in_pos i) by apply sdrop_len.
  rewrite (skip_loop_skip sgn report rest) by (try reflexivity; slia).
  cbn [bind]; pose proof (skip_le sgn rest) as Hs.
  destruct (Nat.eqb (skip sgn rest) (slen rest)) eqn:E.
  - apply Nat.eqb_eq in E; rewrite (skip_all sgn rest E).
    exists "", (mkInput true (slen report)); repeat split; cbn; slia.
  - apply Nat.eqb_neq in E.
    set (pos := in_pos i + skip sgn rest).
    set (rest2 := sdrop (skip sgn rest) rest).
    assert (R2 : sdrop pos report = rest2) by (unfold pos, rest2, rest; apply sdrop_add).
    assert (L2 : slen rest2 = slen report - pos).
    { rewrite <- R2; apply sdrop_len. }
    rewrite (group_loop_scan sgn report pos rest2 (S (slen report)) 0);
      [| slia | slia | now rewrite Nat.add_0_r | slia ].
    cbn [bind Nat.eqb].
    pose proof (scan_le sgn rest2 true) as Hn.
    destruct (scan sgn true rest2) as [n f] eqn:Es; cbn [fst snd] in *.
    unfold substr; rewrite (proj2 (Nat.leb_le pos (slen report))) by slia; cbn [bind].
    rewrite cut_skip; fold rest2.
    rewrite (cut_scan sgn rest2 "" n f Es).
    assert (Sb : substring pos (0 + n) report = substring 0 n rest2).
    { rewrite substring_sdrop, R2; reflexivity. }
    exists (substring pos (0 + n) report), (mkInput f (pos + (0 + n))).
    split; [reflexivity|]; split; [cbn [in_pos]; slia|].
    rewrite Sb; cbn [String.append in_finished in_pos].
    assert (Ln : slen (substring 0 n rest2) = n) by (rewrite substring0_len; slia).
    destruct (substring 0 n rest2) as [|x y] eqn:Ex; cbn [nonempty_piece app].
    + cbn in Ln; subst n. destruct f; [reflexivity|].
      (* n = 0 and not finished: impossible, the first character is no delimiter *)
      exfalso. destruct rest2 as [|c t] eqn:Er; [cbn in L2; slia|].
      assert (Hc : le_space sgn c = false) by (eapply skip_stop; fold rest2 in Er; exact Er).
      cbn [scan] in Es; rewrite Hc in Es.
      destruct (Ascii.eqb c "="); [discriminate|].
      cbn [negb andb] in Es.
      destruct (scan sgn false t); discriminate.
    + repeat split.
      * destruct f; [reflexivity|]. do 2 f_equal. cbn [Nat.add]. rewrite <- R2, <- sdrop_add. reflexivity.
      * discriminate.
      * rewrite Ln; slia.
Qed.

(** ** Parser::parse only depends on the groups of the report *)

Lemma step_all_error : forall n l p, isError (ps_status p) = true -> step_all n l p = Ok p.
Proof. intros n [|s l] p H; cbn; [reflexivity | now rewrite H]. Qed.

Lemma parse_loop_step_all : forall sgn report limit fuel i s i0 p,
  in_pos i0 <= slen report ->
  getNextGroup sgn report i0 = Ok (s, i) ->
  slen report - in_pos i0 < fuel ->
  parse_loop sgn report limit fuel i s p = step_all limit (groups_left sgn report i0) p.
Proof.
  intros sgn report limit; induction fuel as [|fuel IH]; intros i s i0 p Hp Hg Hf; [slia|].
  destruct (getNextGroup_spec sgn report i0 Hp) as (s' & i' & E & Hb & Hm).
  rewrite E in Hg; inv Hg.
  cbn [parse_loop].
  destruct (groups_left sgn report i0) as [|t l] eqn:Eg.
  - subst s; reflexivity.
  - destruct Hm as (-> & Hl & Hne & Hlen).
    assert (Es : sempty t = false) by (destruct t; [congruence | reflexivity]).
    rewrite Es; cbn [negb andb step_all].
    destruct (isError (ps_status p)); [reflexivity|]; cbn [negb].
    destruct (parse_step limit t p) as [p'|e]; [|reflexivity]; cbn [bind].
    destruct (getNextGroup_spec sgn report i) as (s2 & i2 & E2 & Hb2 & Hm2); [slia|].
    rewrite E2; cbn [bind]; rewrite <- Hl.
    apply IH with (i0 := i); [slia | exact E2 |].
    assert (slen t <> 0) by (intros Z; apply slen_zero in Z; congruence). slia.
Qed.

Theorem parse_eq_parse_groups : forall sgn report limit,
  parse sgn report limit = parse_groups limit (report_groups sgn report).
Proof.
  intros sgn report limit; unfold parse, parse_groups.
  destruct (getNextGroup_spec sgn report (mkInput false 0)) as (s & i & E & Hb & Hm); [cbn; slia|].
  rewrite E; cbn [bind].
  rewrite (parse_loop_step_all sgn report limit _ i s (mkInput false 0)); [| cbn; slia | exact E | cbn; slia].
  unfold groups_left, report_groups; cbn [in_finished in_pos]; rewrite sdrop_0; reflexivity.
Qed.

Lemma reads_groups_left : forall sgn report n i,
  in_pos i <= slen report -> slen report - in_pos i < n ->
  Reads sgn report i (groups_left sgn report i).
Proof.
  intros sgn report; induction n as [|n IH]; intros i Hp Hn; [slia|].
  destruct (getNextGroup_spec sgn report i Hp) as (s & i' & E & Hb & Hm).
  destruct (groups_left sgn report i) as [|t l].
  - subst s; econstructor; eauto.
  - destruct Hm as (-> & <- & Hne & Hlen).
    eapply Reads_group; eauto; apply IH; [slia|].
    assert (slen t <> 0) by (intros Z; apply slen_zero in Z; congruence). slia.
Qed.

Lemma reads_report_groups : forall sgn report,
  Reads sgn report (mkInput false 0) (report_groups sgn report).
Proof.
  intros sgn report.
  pose proof (reads_groups_left sgn report (S (slen report)) (mkInput false 0)) as H.
  unfold groups_left in H; cbn [in_finished in_pos] in H; rewrite sdrop_0 in H.
  apply H; cbn; slia.
Qed.

Lemma reads_det : forall sgn report i l, Reads sgn report i l ->
  forall l', Reads sgn report i l' -> l = l'.
Proof.
  intros sgn report i l H; induction H as [i i' E|i s i' l E Hn H IH]; intros l' H'; inv H';
    try congruence.
  rewrite E in H0; inv H0; f_equal; auto.
Qed.

Lemma reads_iff : forall sgn report l,
  Reads sgn report (mkInput false 0) l <-> l = report_groups sgn report.
Proof.
  intros sgn report l; split.
  - intros H; eapply reads_det; [exact H | apply reads_report_groups].
  - intros ->; apply reads_report_groups.
Qed.

(** ** Shape of the groups *)

Lemma all_chars_app : forall P a b, all_chars P (a ++ b) <-> all_chars P a /\ all_chars P b.
Proof.
  intros P; induction a as [|c a IH]; intros b; cbn; [tauto|]; rewrite IH; tauto.
Qed.
Lemma all_chars_impl : forall (P Q : ascii -> Prop) s, (forall c, P c -> Q c) ->
  all_chars P s -> all_chars Q s.
Proof. intros P Q s H; induction s as [|c s IH]; cbn; [auto|]; intros [A B]; auto. Qed.

(** a group being collected *)
Definition open_piece (sgn : bool) (s : string) : Prop :=
  s = "" \/ exists f m, s = String f m /\ delimiter sgn f = false /\ f <> "="%char /\
                        all_chars (inner sgn) m.

Lemma nonempty_in : forall s x, In x (nonempty_piece s) -> x = s /\ s <> "".
Proof. intros [|c s] x H; cbn in H; [tauto|]; destruct H as [<- |[]]; split; [auto | discriminate]. Qed.

Lemma open_piece_group : forall sgn s, open_piece sgn s -> s <> "" -> group_text sgn s.
Proof.
  intros sgn s [E|(f & m & -> & Hf & He & Hm)] Hn; [congruence|].
  exists f, m, ""; rewrite app_empty_r; auto 10.
Qed.

Lemma cut_groups : forall sgn text piece,
  all_chars (fun c => c <> "="%char) text -> open_piece sgn piece ->
  Forall (group_text sgn) (cut sgn piece text).
Proof.
  intros sgn; induction text as [|c t IH]; intros piece Ht Hp; cbn [cut].
  - apply Forall_forall; intros x Hx; apply nonempty_in in Hx; destruct Hx as [-> Hn].
    apply open_piece_group; auto.
  - destruct Ht as [Hc Ht].
    destruct (delimiter sgn c) eqn:Ed.
    + apply Forall_app; split; [|apply IH; [auto | left; reflexivity]].
      apply Forall_forall; intros x Hx; apply nonempty_in in Hx; destruct Hx as [-> Hn].
      apply open_piece_group; auto.
    + destruct (Ascii.eqb c "+" && negb (String.eqb piece "")) eqn:Ep.
      * apply andb_true_iff in Ep; destruct Ep as [_ Hn]; apply negb_true_iff in Hn.
        apply String.eqb_neq in Hn.
        constructor; [|apply IH; [auto | left; reflexivity]].
        destruct Hp as [E|(f & m & -> & Hf & He & Hm)]; [congruence|].
        exists f, m, "+"; cbn; auto 10.
      * apply IH; [exact Ht|]. right.
        destruct Hp as [-> |(f & m & -> & Hf & He & Hm)].
        -- exists c, ""; cbn; auto.
        -- exists f, (m ++ String c ""); repeat split; auto.
           apply all_chars_app; split; [exact Hm|]; cbn; split; [|trivial].
           repeat split; auto; intros ->; cbn in Ep; discriminate.
Qed.

Lemma before_end_no_eq : forall s, all_chars (fun c => c <> "="%char) (before_end_indicator s).
Proof.
  induction s as [|c s IH]; cbn; [trivial|]; destruct (Ascii.eqb c "=") eqn:E; cbn; [trivial|].
  split; [intros ->; discriminate | exact IH].
Qed.

Lemma report_groups_shape : forall sgn report, Forall (group_text sgn) (report_groups sgn report).
Proof. intros; apply cut_groups; [apply before_end_no_eq | left; reflexivity]. Qed.

Lemma joined_app : forall a b, joined (a ++ b)%list = joined a ++ joined b.
Proof.
  induction a as [|x a IH]; intros b; cbn; [reflexivity|]; rewrite IH, app_assoc_s; reflexivity.
Qed.
Lemma joined_nonempty : forall s, joined (nonempty_piece s) = s.
Proof. intros [|c s]; cbn; [reflexivity | now rewrite app_empty_r]. Qed.

Lemma cut_joined : forall sgn text piece,
  joined (cut sgn piece text) = piece ++ without_delimiters sgn text.
Proof.
  intros sgn; induction text as [|c t IH]; intros piece; cbn [cut without_delimiters].
  - rewrite app_empty_r; apply joined_nonempty.
  - destruct (delimiter sgn c) eqn:Ed.
    + rewrite joined_app, joined_nonempty, IH; reflexivity.
    + destruct (Ascii.eqb c "+" && negb (String.eqb piece "")) eqn:Ep.
      * cbn [joined]; rewrite IH.
        apply andb_true_iff in Ep; destruct Ep as [Ep _]; apply Ascii.eqb_eq in Ep; subst c.
        rewrite app_assoc_s; reflexivity.
      * rewrite IH, app_assoc_s; reflexivity.
Qed.

Lemma report_groups_joined : forall sgn report,
  joined (report_groups sgn report) = without_delimiters sgn (before_end_indicator report).
Proof. intros; unfold report_groups; rewrite cut_joined; reflexivity. Qed.

(** ** C03 *)
Lemma before_end_eq : forall r x,
  before_end_indicator (r ++ "=" ++ x) = before_end_indicator r.
Proof.
  induction r as [|c r IH]; intros x; cbn; [reflexivity|].
  destruct (Ascii.eqb c "="); [reflexivity|]; f_equal; apply IH.
Qed.

Lemma parse_end_indicator : forall sgn r x limit,
  parse sgn (r ++ "=" ++ x) limit = parse sgn r limit.
Proof.
  intros; rewrite !parse_eq_parse_groups; unfold report_groups; rewrite before_end_eq; reflexivity.
Qed.

(** ** C04 *)
Lemma parse_same_groups : forall sgn sgn' r r' limit,
  report_groups sgn r = report_groups sgn' r' -> parse sgn r limit = parse sgn' r' limit.
Proof. intros sgn sgn' r r' limit H; rewrite !parse_eq_parse_groups, H; reflexivity. Qed.

Lemma before_end_id : forall s, all_chars (fun c => c <> "="%char) s -> before_end_indicator s = s.
Proof.
  induction s as [|c s IH]; cbn; [reflexivity|]; intros [Hc Hs].
  destruct (Ascii.eqb c "=") eqn:E; [apply Ascii.eqb_eq in E; congruence|]; f_equal; auto.
Qed.

Lemma delim_not_eq : forall sgn c, delimiter sgn c = true -> c <> "="%char.
Proof. intros sgn c H ->; destruct sgn; discriminate. Qed.

Lemma blank_no_eq : forall sgn d, blank sgn d -> all_chars (fun c => c <> "="%char) d.
Proof. intros sgn d; apply all_chars_impl; apply delim_not_eq. Qed.

Lemma group_no_eq : forall sgn g, group_text sgn g -> all_chars (fun c => c <> "="%char) g.
Proof.
  intros sgn g (f & m & l & -> & Hl & Hf & He & Hm); cbn; split; [exact He|].
  apply all_chars_app; split.
  - eapply all_chars_impl; [|exact Hm]; intros c (_ & H & _); exact H.
  - destruct Hl as [-> | ->]; cbn; [trivial | split; [discriminate | trivial]].
Qed.

Lemma cut_blank : forall sgn d text, blank sgn d -> cut sgn "" (d ++ text) = cut sgn "" text.
Proof.
  intros sgn; induction d as [|c d IH]; intros text H; cbn; [reflexivity|].
  destruct H as [Hc Hd]; rewrite Hc; cbn; auto.
Qed.

Lemma cut_inner : forall sgn m piece text, all_chars (inner sgn) m ->
  cut sgn piece (m ++ text) = cut sgn (piece ++ m) text.
Proof.
  intros sgn; induction m as [|c m IH]; intros piece text H.
  - rewrite app_empty_r; reflexivity.
  - destruct H as [(Hd & He & Hp) Hm]; cbn.
    rewrite Hd.
    assert (E : Ascii.eqb c "+" = false) by (apply Ascii.eqb_neq; exact Hp).
    rewrite E; cbn [andb]. rewrite IH by exact Hm; rewrite app_assoc_s; reflexivity.
Qed.

(** a group followed by a delimiter, by nothing, or ending in '+' *)
Lemma cut_group : forall sgn g text, group_text sgn g ->
  match text with "" => True | String c _ => delimiter sgn c = true end ->
  cut sgn "" (g ++ text) = g :: cut sgn "" text.
Proof.
  intros sgn g text (f & m & l & -> & Hl & Hf & He & Hm) Ht.
  assert (S1 : cut sgn "" (String f (m ++ l) ++ text) = cut sgn (String f m) (l ++ text)).
  { cbn; rewrite Hf, andb_false_r, app_assoc_s, cut_inner by exact Hm; reflexivity. }
  rewrite S1; destruct Hl as [-> | ->].
  - rewrite app_empty_r; cbn [String.append].
    destruct text as [|c t]; cbn [cut nonempty_piece]; [reflexivity|].
    rewrite Ht; reflexivity.
  - cbn [String.append cut].
    assert (D : delimiter sgn "+" = false) by (destruct sgn; reflexivity).
    rewrite D; reflexivity.
Qed.

Lemma assemble_head : forall sgn d gs, blank sgn d -> d <> "" \/ gs = [] ->
  match d ++ assemble gs with "" => True | String c _ => delimiter sgn c = true end.
Proof.
  intros sgn [|c d] gs Hb H; cbn.
  - destruct H as [H| ->]; [congruence | exact I].
  - apply Hb.
Qed.

Lemma report_groups_assemble : forall sgn d0 gs,
  blank sgn d0 -> Forall (group_text sgn) (map fst gs) -> Forall (blank sgn) (map snd gs) ->
  separated gs -> report_groups sgn (d0 ++ assemble gs) = map fst gs.
Proof.
  intros sgn d0 gs H0 Hg Hd Hs; unfold report_groups.
  rewrite before_end_id.
  - rewrite cut_blank by exact H0.
    clear H0; induction gs as [|[g d] gs IH]; [reflexivity|].
    cbn [map fst snd assemble] in *; inv Hg; inv Hd.
    rewrite cut_group; [|assumption|].
    + rewrite cut_blank by assumption; f_equal; apply IH; auto.
      destruct gs; [exact I | apply Hs].
    + apply assemble_head; [assumption|]; destruct gs as [|x gs]; [right; reflexivity|].
      left; apply Hs.
  - apply all_chars_app; split; [eapply blank_no_eq; eauto|].
    clear Hs; induction gs as [|[g d] gs IH]; cbn; [trivial|].
    cbn [map fst snd] in *; inv Hg; inv Hd.
    apply all_chars_app; split; [eapply group_no_eq; eauto|].
    apply all_chars_app; split; [eapply blank_no_eq; eauto | auto].
Qed.

Lemma parse_assemble : forall sgn limit d0 d0' gs gs',
  blank sgn d0 -> blank sgn d0' ->
  Forall (group_text sgn) (map fst gs) -> map fst gs = map fst gs' ->
  Forall (blank sgn) (map snd gs) -> Forall (blank sgn) (map snd gs') ->
  separated gs -> separated gs' ->
  parse sgn (d0 ++ assemble gs) limit = parse sgn (d0' ++ assemble gs') limit.
Proof.
  intros sgn limit d0 d0' gs gs' H0 H0' Hg E Hd Hd' Hs Hs'; apply parse_same_groups.
  rewrite !report_groups_assemble; auto; rewrite <- E; exact Hg.
Qed.

(** ** C19 *)
Lemma delimiter_seven_bit : forall c, nat_of_ascii c < 128 -> delimiter true c = delimiter false c.
Proof.
  intros c H; unfold delimiter; rewrite (proj2 (Nat.leb_gt 128 (nat_of_ascii c)) H); reflexivity.
Qed.

Lemma cut_seven_bit : forall text piece, seven_bit text -> cut true piece text = cut false piece text.
Proof.
  induction text as [|c t IH]; intros piece H; [reflexivity|]; destruct H as [Hc Ht].
  cbn [cut]; rewrite (delimiter_seven_bit c Hc), !IH by exact Ht; reflexivity.
Qed.

Lemma before_end_seven_bit : forall s, seven_bit s -> seven_bit (before_end_indicator s).
Proof.
  induction s as [|c s IH]; cbn; [trivial|]; intros [Hc Hs].
  destruct (Ascii.eqb c "="); cbn; [exact I | split; [exact Hc | apply IH; exact Hs]].
Qed.

Lemma parse_seven_bit : forall s limit, seven_bit s -> parse true s limit = parse false s limit.
Proof.
  intros s limit H; apply parse_same_groups; unfold report_groups; apply cut_seven_bit.
  apply before_end_seven_bit; exact H.
Qed.
