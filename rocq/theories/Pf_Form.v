(** Regular expressions of fixed form. *)
From Verif Require Import Prim Lib Regex SpecRegex Pf_Regex Pf_Caps SpecForm SpecDecimal Pf_Decimal.
Local Open Scope string_scope.

Fixpoint flat (r : re) : option (list (list (ascii * ascii))) :=
  match r with
  | REps => Some []
  | RCls rs => Some [rs]
  | RSeq a b => match flat a, flat b with Some x, Some y => Some (x ++ y)%list | _, _ => None end
  | RGrp _ a => flat a
  | _ => None
  end.
Definition in_form (l : list (list (ascii * ascii))) : list (ascii -> bool) := map (fun rs c => in_cls c rs) l.

Lemma fits_app : forall a b p q, fits a p = true -> fits b q = true -> fits (a ++ b) (p ++ q) = true.
Proof.
  induction a as [|x a IH]; intros b p q A B; destruct p as [|c p]; try discriminate A; cbn in *; [exact B|].
  apply andb_prop in A; destruct A as [-> A]; cbn; auto.
Qed.
Lemma fits_split : forall a b s, fits (a ++ b) s = true -> exists p q, s = p ++ q /\ fits a p = true /\ fits b q = true.
Proof.
  induction a as [|x a IH]; intros b s H; cbn in H.
  - exists "", s; auto.
  - destruct s as [|c s]; [discriminate H|]; apply andb_prop in H; destruct H as [Hc H].
    destruct (IH _ _ H) as (p & q & -> & A & B); exists (String c p), q; cbn; rewrite Hc; auto.
Qed.
Lemma flat_lang : forall r l s, flat r = Some l -> (Lang r s <-> fits (in_form l) s = true).
Proof.
  induction r as [|rs|a IHa b IHb|a IHa b IHb|a IHa|a IHa|n a IHa]; intros l s E; cbn in E; try discriminate E.
  - injection E as <-; split; [intros H; inv H; reflexivity|].
    destruct s; [constructor | discriminate].
  - injection E as <-; split; [intros H; inv H; cbn; rewrite H1; reflexivity|].
    destruct s as [|c [|d s]]; cbn; try discriminate; [|rewrite andb_false_r; discriminate].
    rewrite andb_true_r; intros H; constructor; exact H.
  - destruct (flat a) as [x|]; [|discriminate E]; destruct (flat b) as [y|]; [|discriminate E]; injection E as <-.
    unfold in_form; rewrite map_app; split.
    + intros H; inv H; apply fits_app; [apply IHa | apply IHb]; auto.
    + intros H; apply fits_split in H; destruct H as (p & q & -> & A & B); constructor; [eapply IHa | eapply IHb]; eauto.
  - split; [intros H; inv H; apply IHa; auto | intros H; constructor; eapply IHa; eauto].
Qed.
(** Forms that allow the same characters *)
Lemma fits_ext : forall a b s, Forall2 (fun p q => forallb (fun c => Bool.eqb (p c) (q c)) all_chars = true) a b -> fits a s = fits b s.
Proof.
  intros a b s H; revert s; induction H as [|p q a b Hpq F IH]; intros s; [reflexivity|].
  destruct s as [|c s]; [reflexivity|]; cbn; rewrite IH; f_equal.
  rewrite forallb_forall in Hpq; specialize (Hpq c (all_chars_in c)); apply Bool.eqb_prop in Hpq; exact Hpq.
Qed.
Lemma flat_match : forall r l form, flat r = Some l ->
  Forall2 (fun p q => forallb (fun c => Bool.eqb (p c) (q c)) all_chars = true) (in_form l) form ->
  forall s, is_match r s = fits form s.
Proof.
  intros r l form E F s; rewrite <- (fits_ext _ _ s F); apply Bool.eq_iff_eq_true; rewrite is_match_lang; apply flat_lang; exact E.
Qed.
Ltac flat_tac := eapply flat_match; [vm_compute; reflexivity | repeat (constructor; [vm_compute; reflexivity|]); constructor].

(** Where the capture groups are *)
Fixpoint width (r : re) : nat :=
  match r with
  | RCls _ => 1
  | RSeq a b => width a + width b
  | RGrp _ a => width a
  | _ => 0
  end.
Fixpoint places (r : re) (at_ : nat) : list (nat * (nat * nat)) :=
  match r with
  | RSeq a b => places b (at_ + width a) ++ places a at_
  | RGrp n a => (n, (at_, width a)) :: places a at_
  | _ => []
  end%list.
Lemma flat_width : forall r l s c, flat r = Some l -> Captures r s c -> slen s = width r.
Proof.
  induction r as [|rs|a IHa b IHb|a IHa b IHb|a IHa|a IHa|n a IHa]; intros l s c E H; cbn in E; try discriminate E.
  - inv H; reflexivity.
  - inv H; reflexivity.
  - destruct (flat a) as [x|]; [|discriminate E]; destruct (flat b) as [y|]; [|discriminate E].
    inv H; rewrite slen_app; cbn [width]; erewrite IHa, IHb; eauto.
  - inv H; eapply IHa; eauto.
Qed.
Lemma substring_mid : forall p q r, substring (slen p) (slen q) (p ++ q ++ r) = q.
Proof. induction p as [|c p IH]; intros q r; cbn; [apply substring0_app | apply IH]. Qed.
Lemma sapp_assoc : forall a b c : string, (a ++ b) ++ c = a ++ b ++ c.
Proof. induction a as [|x a IH]; intros b c; cbn; [reflexivity | rewrite IH; reflexivity]. Qed.
Lemma flat_places : forall r l p c, flat r = Some l -> Captures r p c ->
  forall pre post, c = map (fun x => (fst x, substring (fst (snd x)) (snd (snd x)) (pre ++ p ++ post))) (places r (slen pre)).
Proof.
  induction r as [|rs|a IHa b IHb|a IHa b IHb|a IHa|a IHa|n a IHa]; intros l p c E H pre post; cbn in E; try discriminate E.
  - inv H; reflexivity.
  - inv H; reflexivity.
  - destruct (flat a) as [x|] eqn:Ea; [|discriminate E]; destruct (flat b) as [y|] eqn:Eb; [|discriminate E].
    inversion H as [| |a' b' p1 q1 ca cb Ha Hb| | | | | | |]; subst; cbn [places]; rewrite map_app; f_equal.
    + rewrite (IHb _ _ _ eq_refl Hb (pre ++ p1) post), slen_app, (flat_width _ _ _ _ Ea Ha), !sapp_assoc; reflexivity.
    + rewrite (IHa _ _ _ eq_refl Ha pre (q1 ++ post)), !sapp_assoc; reflexivity.
  - inversion H as [| | | | | | | | |n' a' p' c' Ha]; subst; cbn [places map fst snd]; f_equal; [|eapply IHa; eauto].
    rewrite <- (flat_width _ _ _ _ E Ha), substring_mid; reflexivity.
Qed.
Lemma flat_captures : forall r l s m, flat r = Some l -> regex_match r s = Some m ->
  m = map (fun x => (fst x, substring (fst (snd x)) (snd (snd x)) s)) (places r 0).
Proof.
  intros r l s m E H; apply regex_match_captures in H; rewrite (flat_places _ _ _ _ E H "" ""), app_empty_r; reflexivity.
Qed.

(** Digits of a form *)
Lemma digit_decimal : forall c, digit c = true -> exists d, digit_of c = Some d.
Proof. intros [[] [] [] [] [] [] [] []] H; vm_compute in H; try discriminate H; eexists; reflexivity. Qed.
Lemma digits_decimal : forall n s, fits (repeat digit n) s = true -> exists v, decimal s = Some v.
Proof.
  induction n as [|n IH]; intros s H; destruct s as [|c s]; try discriminate H; [eexists; reflexivity|].
  cbn in H; apply andb_prop in H; destruct H as [Hc H]; apply IH in H; destruct H as [v Hv].
  apply digit_decimal in Hc; destruct Hc as [d Hd]; cbn [decimal]; rewrite Hd, Hv; eexists; reflexivity.
Qed.
Lemma fits_length : forall f s, fits f s = true -> slen s = List.length f.
Proof.
  induction f as [|p f IH]; intros [|c s] H; try discriminate H; [reflexivity|].
  cbn in *; apply andb_prop in H; destruct H as [_ H]; rewrite IH; auto.
Qed.
Lemma fits_sub : forall a b c s, fits (a ++ b ++ c) s = true ->
  fits b (substring (List.length a) (List.length b) s) = true.
Proof.
  intros a b c s H; apply fits_split in H; destruct H as (p & q & -> & A & B).
  apply fits_split in B; destruct B as (x & y & -> & B & C).
  rewrite <- (fits_length _ _ A), <- (fits_length _ _ B), substring_mid; exact B.
Qed.
