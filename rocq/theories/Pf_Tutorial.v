(** What the tutorial program prints (C76). *)
From Verif Require Import Prim Regex Float Values Weather Groups1 Groups2 Groups3 Groups4 Parser Lib Format Tutorial
  SpecTutorial Pf_Ok Pf_Total SpecReach.
Local Open Scope string_scope.

Lemma visited : forall i, lists i (Visitor_visitInfo "" MyVisitor i).
Proof. intros [[] part raw]; (left; reflexivity) || (right; reflexivity). Qed.
Lemma groups_printed : forall l, tutorial_groups l = print_lines (map (Visitor_visitInfo "" MyVisitor) l).
Proof. induction l as [|i l IH]; [reflexivity|]; cbn [tutorial_groups map print_lines]; rewrite IH; reflexivity. Qed.
Lemma all_listed : forall l, Forall2 lists l (map (Visitor_visitInfo "" MyVisitor) l).
Proof. induction l as [|i l IH]; constructor; [apply visited|exact IH]. Qed.
Lemma tutorial_prints : forall sgn report, exists r lines, parse sgn report default_groupLimit = Ok r
  /\ Forall2 lists (pr_groups r) lines
  /\ tutorial sgn report = Ok (print_lines (heading report (errorMessage (md_error (pr_metadata r)))
       (reportTypeMessage (md_type (pr_metadata r))) (List.length (pr_groups r)) ++ lines)).
Proof.
  intros sgn report; destruct (parse_returns sgn report default_groupLimit) as (r & E).
  exists r, (map (Visitor_visitInfo "" MyVisitor) (pr_groups r)); split; [exact E|]; split; [apply all_listed|].
  unfold tutorial; rewrite E; cbn [bind]; f_equal; rewrite groups_printed.
  unfold heading, end_line; cbn [app print_lines]; rewrite !app_assoc_s; reflexivity.
Qed.
(** the label ends at the first colon *)
Fixpoint label_of (s : string) : string :=
  match s with "" => "" | String c s' => if Ascii.eqb c ":" then "" else String c (label_of s') end.
Lemma lists_label : forall i s, lists i s -> label_of s = kind_name (gi_group i).
Proof. intros [g part raw] s [-> | ->]; destruct g; reflexivity. Qed.
Lemma name_index : forall g h, kind_name g = kind_name h -> Group_index g = Group_index h.
Proof. intros [] []; intros E; reflexivity || discriminate E. Qed.
Lemma line_tells : forall i j, Visitor_visitInfo "" MyVisitor i = Visitor_visitInfo "" MyVisitor j ->
  Group_index (gi_group i) = Group_index (gi_group j) /\ gi_rawString i = gi_rawString j.
Proof.
  intros i j E.
  assert (N : Group_index (gi_group i) = Group_index (gi_group j))
    by (apply name_index; rewrite <- (lists_label _ _ (visited i)), <- (lists_label _ _ (visited j)), E; reflexivity).
  split; [exact N|]; destruct i as [[] p s], j as [[] q t]; try discriminate N; cbn in E; injection E as E; exact E.
Qed.
Lemma messages : forall e e', errorMessage e = errorMessage e' -> e = e'.
Proof. intros [] []; intros E; reflexivity || discriminate E. Qed.
Lemma types : forall t t', reportTypeMessage t = reportTypeMessage t' -> t = t'.
Proof. intros [] []; intros E; reflexivity || discriminate E. Qed.
