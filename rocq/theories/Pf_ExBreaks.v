(** Every end of line becomes a line break, and the loop which replaces them ends. *)
From Coq Require Import Lia List.
From Verif Require Import Prim Lib Explain SpecExplain.
From Verif Require Import Pf_ExText.
Local Open Scope string_scope.

Local Notation nl := "010"%char.
Lemma breaks_app : forall a b, with_breaks (a ++ b) = with_breaks a ++ with_breaks b.
Proof. intros a b. induction a as [|c a IH]; [reflexivity|]. cbn [append with_breaks]. rewrite IH, app_assoc_s. reflexivity. Qed.
Lemma breaks_none : forall a, occurs nl a = false -> with_breaks a = a.
Proof.
  induction a as [|c a IH]; intros H; [reflexivity|]. cbn [occurs with_breaks] in *. apply Bool.orb_false_iff in H. destruct H as [A B].
  rewrite Ascii.eqb_sym, A, (IH B). reflexivity.
Qed.
Lemma find_split : forall s i, match sfind0 nl s i with
  | None => occurs nl s = false
  | Some k => exists a b, s = a ++ String nl b /\ occurs nl a = false /\ k = slen a + i
  end.
Proof.
  induction s as [|c s IH]; intros i; cbn [sfind0]; [reflexivity|]. destruct (Ascii.eqb nl c) eqn:E.
  - apply Ascii.eqb_eq in E. subst c. exists "", s. auto.
  - specialize (IH (S i)). destruct (sfind0 nl s (S i)) as [k|].
    + destruct IH as (a & b & -> & O & ->). exists (String c a), b. cbn [append occurs]. rewrite E, O. split; [reflexivity|]. split; [reflexivity|]. change (slen (String c a)) with (S (slen a)). lia.
    + cbn [occurs]. rewrite E. exact IH.
Qed.
Lemma sub0_app : forall a b, substring 0 (slen a) (a ++ b) = a.
Proof. induction a as [|c a IH]; intros b; [destruct b; reflexivity|]. cbn. rewrite IH. reflexivity. Qed.
Lemma drop_more : forall a b k, sdrop (slen a + k) (a ++ b) = sdrop k b.
Proof. induction a as [|c a IH]; intros b k; [reflexivity|]. cbn. apply IH. Qed.
Lemma put_br_app : forall a b, put_br (a ++ String nl b) (slen a) = a ++ "<br>" ++ b.
Proof. intros a b. unfold put_br. rewrite sub0_app. replace (S (slen a)) with (slen a + 1) by lia. rewrite drop_more. reflexivity. Qed.
Lemma drop_none : forall a k, occurs nl a = false -> occurs nl (sdrop k a) = false.
Proof.
  induction a as [|c a IH]; intros [|k] H; try reflexivity; [exact H|]. cbn [occurs sdrop] in *. apply Bool.orb_false_iff in H. apply IH. apply H.
Qed.
Lemma drop_early : forall a b k, k <= slen a -> sdrop k (a ++ b) = sdrop k a ++ b.
Proof. induction a as [|c a IH]; intros b [|k] H; try reflexivity; [inversion H|]. apply le_S_n in H. exact (IH b k H). Qed.
Lemma drop_len : forall a k, slen (sdrop k a) = slen a - k.
Proof. induction a as [|c a IH]; intros [|k]; try reflexivity. cbn. apply IH. Qed.
Lemma find_skip : forall a b i, occurs nl a = false -> sfind0 nl (a ++ b) i = sfind0 nl b (slen a + i).
Proof.
  induction a as [|c a IH]; intros b i H; [reflexivity|]. cbn [occurs append sfind0] in *. apply Bool.orb_false_iff in H. destruct H as [-> H].
  rewrite (IH _ _ H). f_equal. change (slen (String c a)) with (S (slen a)). lia.
Qed.
(** Up to [a] everything has been replaced. *)
Lemma loop_breaks : forall fuel a b k, occurs nl a = false -> k <= slen a -> slen b <= fuel ->
  br_loop fuel (a ++ b) k = Ok (a ++ with_breaks b) \/ exists f, fuel = S f /\
    exists c d, b = c ++ String nl d /\ occurs nl c = false /\ br_loop fuel (a ++ b) k = br_loop f ((a ++ c ++ "<br>") ++ d) 4.
Proof.
  intros fuel a b k Ha Hk Hf.
  assert (F : sfind nl (a ++ b) k = sfind0 nl b (slen a)).
  { unfold sfind. rewrite (drop_early _ _ _ Hk), (find_skip _ _ _ (drop_none _ k Ha)), drop_len. f_equal. lia. }
  pose proof (find_split b (slen a)) as S. rewrite <- F in S.
  destruct fuel as [|fuel]; cbn [br_loop]; destruct (sfind nl (a ++ b) k) as [pos|].
  - destruct S as (c & d & -> & _). rewrite slen_app in Hf. change (slen (String nl d)) with (S (slen d)) in Hf. lia.
  - left. rewrite (breaks_none _ S). reflexivity.
  - right. exists fuel. split; [reflexivity|]. destruct S as (c & d & -> & Oc & ->). exists c, d. split; [reflexivity|]. split; [exact Oc|].
    rewrite Nat.add_comm, <- slen_app, <- app_assoc_s, put_br_app, <- !app_assoc_s. reflexivity.
  - left. rewrite (breaks_none _ S). reflexivity.
Qed.
Lemma loop_ends : forall fuel a b k, occurs nl a = false -> k <= slen a -> slen b <= fuel -> br_loop fuel (a ++ b) k = Ok (a ++ with_breaks b).
Proof.
  induction fuel as [|fuel IH]; intros a b k Ha Hk Hf; destruct (loop_breaks _ a b k Ha Hk Hf) as [E|(f & Ef & c & d & -> & Oc & E)]; auto; [discriminate Ef|].
  injection Ef as <-. rewrite E. rewrite IH.
  - rewrite breaks_app, (breaks_none _ Oc). cbn [with_breaks Ascii.eqb Bool.eqb]. rewrite !app_assoc_s. reflexivity.
  - rewrite !occurs_app, Ha, Oc. reflexivity.
  - rewrite !slen_app. change (slen "<br>") with 4. lia.
  - rewrite slen_app in Hf. change (slen (String nl d)) with (S (slen d)) in Hf. lia.
Qed.
Theorem breaks_made : forall s, line_breaks s = Ok (with_breaks s).
Proof. intros s. unfold line_breaks. apply (loop_ends (S (slen s)) "" s 0); [reflexivity|cbn; lia|lia]. Qed.
