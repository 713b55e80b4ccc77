(** Taking a regular expression match apart: the text is the concatenation of what the parts of
    the expression matched, and the captures are among them. *)
From Coq Require Import Lia.
From Verif Require Import Prim Lib Regex SpecRegex SpecDecimal SpecNumeral Pf_Regex Pf_Ok Pf_Caps Pf_Decimal Pf_Numeral.
Local Open Scope string_scope.

Lemma cap_seq : forall a b s c, Captures (RSeq a b) s c ->
  exists p q cp cq, s = p ++ q /\ c = (cq ++ cp)%list /\ Captures a p cp /\ Captures b q cq.
Proof. intros a b s c H; inv H; eauto 10. Qed.
Lemma cap_alt : forall a b s c, Captures (RAlt a b) s c -> Captures a s c \/ Captures b s c.
Proof. intros a b s c H; inv H; auto. Qed.
Lemma cap_opt : forall a s c, Captures (ROpt a) s c -> (s = "" /\ c = []) \/ Captures a s c.
Proof. intros a s c H; inv H; auto. Qed.
Lemma cap_grp : forall n a s c, Captures (RGrp n a) s c -> exists cp, c = (n, s) :: cp /\ Captures a s cp.
Proof. intros n a s c H; inv H; eauto. Qed.
Fixpoint flat (r : re) : bool :=
  match r with
  | REps | RCls _ => true
  | RSeq a b | RAlt a b => flat a && flat b
  | ROpt a | RStar a => flat a
  | RGrp _ _ => false
  end.
Lemma cap_flat : forall a s c, flat a = true -> Captures a s c -> c = [] /\ Lang a s.
Proof.
  intros a s c F H. split; [|eapply captures_lang; exact H].
  induction H; cbn in F; try (apply andb_prop in F; destruct F as [F1 F2]); try reflexivity; auto.
  - rewrite IHCaptures1, IHCaptures2 by assumption. reflexivity.
  - rewrite IHCaptures1 by assumption. rewrite IHCaptures2 by exact F. reflexivity.
  - discriminate.
Qed.
(** [captures H]: take all of a match apart *)
Ltac captures H :=
  lazymatch type of H with
  | Captures ?r ?s ?c =>
    let f := eval vm_compute in (flat r) in
    lazymatch f with
    | true =>
      let L := fresh "L" in
      pose proof (cap_flat r s c eq_refl H) as [-> L]; clear H
    | false =>
      lazymatch r with
      | RSeq _ _ =>
        let p := fresh "p" in let q := fresh "q" in let cp := fresh "cp" in let cq := fresh "cq" in
        let A := fresh "M" in let B := fresh "M" in
        apply cap_seq in H; destruct H as (p & q & cp & cq & -> & -> & A & B); captures A; captures B
      | RAlt _ _ => apply cap_alt in H; destruct H as [H|H]; captures H
      | ROpt _ => apply cap_opt in H; destruct H as [[-> ->]|H]; [|captures H]
      | RGrp _ _ =>
        let cp := fresh "cp" in
        apply cap_grp in H; destruct H as (cp & -> & H); captures H
      | _ => idtac
      end
    end
  end.

(** Digits *)
Lemma digits_n : forall r n s, Lang r s -> minlen r = n -> maxlen r = Some n -> cls_all is_digit r = true ->
  (0 < n <= 9)%nat -> exists v, numeral n s v /\ stoi s = Ok v.
Proof.
  intros r n s L Mi Ma C B. pose proof (lang_minlen _ _ L) as L1. pose proof (lang_maxlen _ _ L _ Ma) as L2.
  assert (D : all_digits s = true) by (rewrite all_digits_str_all; exact (lang_cls_all _ _ _ L C)).
  assert (Ln : slen s = n) by lia.
  pose proof (ok_stoi s) as K. assert (O : ok (stoi s) (fun v => decimal s = Some v)).
  { apply K; [intros ->; cbn in Ln; lia|exact D|lia]. }
  unfold ok in O. destruct (stoi s) as [v|]; [|contradiction]. exists v. split; [split; assumption|reflexivity].
Qed.
Lemma letters_one : forall r P s, Lang r s -> cls_all P r = true -> str_all P s = true.
Proof. intros r P s L C. exact (lang_cls_all _ _ _ L C). Qed.
