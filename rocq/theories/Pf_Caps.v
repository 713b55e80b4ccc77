(** What the capture groups of a match contain. *)
From Verif Require Import Prim Lib Regex SpecRegex Pf_Regex.
Local Open Scope string_scope.

(** The bodies of the capture groups numbered [n] in [r]. *)
Fixpoint bodies (r : re) (n : nat) : list re :=
  match r with
  | REps | RCls _ => []
  | RSeq a b | RAlt a b => bodies a n ++ bodies b n
  | ROpt a | RStar a => bodies a n
  | RGrp m a => (if Nat.eqb m n then [a] else []) ++ bodies a n
  end%list.
(** Every match of [r] goes through a capture group numbered [n]. *)
Fixpoint must (r : re) (n : nat) : bool :=
  match r with
  | REps | RCls _ | ROpt _ | RStar _ => false
  | RSeq a b => must a n || must b n
  | RAlt a b => must a n && must b n
  | RGrp m a => Nat.eqb m n || must a n
  end.

Lemma captures_bodies : forall r s c, Captures r s c ->
  forall n p, In (n, p) c -> exists a, In a (bodies r n) /\ Lang a p.
Proof.
  induction 1; intros m x Hin; cbn [bodies].
  - contradiction.
  - contradiction.
  - apply in_app_or in Hin; destruct Hin as [Hin|Hin].
    + destruct (IHCaptures2 _ _ Hin) as (r & Hr & L); exists r; split; [apply in_or_app; auto | exact L].
    + destruct (IHCaptures1 _ _ Hin) as (r & Hr & L); exists r; split; [apply in_or_app; auto | exact L].
  - destruct (IHCaptures _ _ Hin) as (r & Hr & L); exists r; split; [apply in_or_app; auto | exact L].
  - destruct (IHCaptures _ _ Hin) as (r & Hr & L); exists r; split; [apply in_or_app; auto | exact L].
  - contradiction.
  - eauto.
  - contradiction.
  - apply in_app_or in Hin; destruct Hin as [Hin|Hin]; eauto.
  - destruct Hin as [Hin|Hin].
    + inv Hin; rewrite Nat.eqb_refl; exists a; split; [left; reflexivity|].
      eapply captures_lang; eassumption.
    + destruct (IHCaptures _ _ Hin) as (r & Hr & L); exists r; split; [apply in_or_app; auto | exact L].
Qed.

Lemma captures_must : forall r s c, Captures r s c ->
  forall n, must r n = true -> exists p, In (n, p) c.
Proof.
  induction 1; intros m Hm; cbn [must] in Hm; try discriminate.
  - apply orb_true_iff in Hm; destruct Hm as [Hm|Hm].
    + destruct (IHCaptures1 _ Hm) as [x Hx]; exists x; apply in_or_app; auto.
    + destruct (IHCaptures2 _ Hm) as [x Hx]; exists x; apply in_or_app; auto.
  - apply andb_true_iff in Hm; destruct Hm; auto.
  - apply andb_true_iff in Hm; destruct Hm; auto.
  - apply orb_true_iff in Hm; destruct Hm as [Hm|Hm].
    + apply Nat.eqb_eq in Hm; subst; exists p; left; reflexivity.
    + destruct (IHCaptures _ Hm) as [x Hx]; exists x; right; exact Hx.
Qed.

Lemma mstr_in : forall c n, (exists p, In (n, p) c /\ mstr c n = p) \/ (mstr c n = "" /\ forall p, ~ In (n, p) c).
Proof.
  intros c n; unfold mstr.
  destruct (find _ c) as [[k p]|] eqn:E.
  - apply find_some in E; destruct E as [Hin Hk]; cbn in Hk; apply Nat.eqb_eq in Hk; subst k.
    left; exists p; auto.
  - right; split; [reflexivity|]; intros p Hin.
    apply (find_none _ _ E) in Hin; cbn in Hin; rewrite Nat.eqb_refl in Hin; discriminate.
Qed.

(** A capture group every match goes through. *)
Lemma mstr_must : forall r s m n a,
  regex_match r s = Some m -> must r n = true -> bodies r n = [a] -> Lang a (mstr m n).
Proof.
  intros r s m n a H Hm Hb; apply regex_match_captures in H.
  destruct (captures_must _ _ _ H _ Hm) as [p Hp].
  destruct (mstr_in m n) as [(q & Hq & ->)|[_ N]]; [|exfalso; eapply N; eassumption].
  destruct (captures_bodies _ _ _ H _ _ Hq) as (b & Hb' & L).
  rewrite Hb in Hb'; destruct Hb' as [<- | []]; exact L.
Qed.
(** A capture group a match may avoid. *)
Lemma mstr_may : forall r s m n a,
  regex_match r s = Some m -> bodies r n = [a] -> mstr m n = "" \/ Lang a (mstr m n).
Proof.
  intros r s m n a H Hb; apply regex_match_captures in H.
  destruct (mstr_in m n) as [(q & Hq & ->)|[E _]]; [|left; exact E].
  destruct (captures_bodies _ _ _ H _ _ Hq) as (b & Hb' & L).
  rewrite Hb in Hb'; destruct Hb' as [<- | []]; right; exact L.
Qed.

Lemma match_lang : forall r s m, regex_match r s = Some m -> Lang r s.
Proof. intros r s m H; apply regex_match_captures in H; eapply captures_lang; eassumption. Qed.

(** ** Consequences of membership in a language, by computation on the expression *)

Fixpoint minlen (r : re) : nat :=
  match r with
  | REps | ROpt _ | RStar _ => 0
  | RCls _ => 1
  | RSeq a b => minlen a + minlen b
  | RAlt a b => Nat.min (minlen a) (minlen b)
  | RGrp _ a => minlen a
  end.
(** [None]: unbounded *)
Fixpoint maxlen (r : re) : option nat :=
  match r with
  | REps => Some 0
  | RCls _ => Some 1
  | RSeq a b => match maxlen a, maxlen b with Some x, Some y => Some (x + y) | _, _ => None end
  | RAlt a b => match maxlen a, maxlen b with Some x, Some y => Some (Nat.max x y) | _, _ => None end
  | ROpt a | RGrp _ a => maxlen a
  | RStar _ => None
  end.
Lemma lang_minlen : forall r s, Lang r s -> minlen r <= slen s.
Proof. induction 1; cbn [minlen]; rewrite ?slen_app; slia. Qed.
Lemma lang_maxlen : forall r s, Lang r s -> forall n, maxlen r = Some n -> slen s <= n.
Proof.
  induction 1; intros k Hk; cbn [maxlen] in Hk.
  - inv Hk; slia.
  - inv Hk; slia.
  - destruct (maxlen a), (maxlen b); inv Hk; rewrite slen_app.
    specialize (IHLang1 _ eq_refl); specialize (IHLang2 _ eq_refl); lia.
  - destruct (maxlen a), (maxlen b); inv Hk; specialize (IHLang _ eq_refl); lia.
  - destruct (maxlen a), (maxlen b); inv Hk; specialize (IHLang _ eq_refl); lia.
  - slia.
  - auto.
  - discriminate.
  - discriminate.
  - auto.
Qed.

(** All 256 characters. *)
Definition all_chars : list ascii := map ascii_of_nat (seq 0 256).
Lemma all_chars_in : forall c, In c all_chars.
Proof.
  intros c; unfold all_chars; rewrite <- (ascii_nat_embedding c).
  apply in_map, in_seq; pose proof (nat_ascii_bounded c) as B; split; [apply Nat.le_0_l|].
  exact B.
Qed.
Opaque all_chars.
(** A property of characters holds for every character of every string in the language. *)
Fixpoint cls_all (P : ascii -> bool) (r : re) : bool :=
  match r with
  | REps => true
  | RCls rs => forallb (fun c => negb (in_cls c rs) || P c) all_chars
  | RSeq a b | RAlt a b => cls_all P a && cls_all P b
  | ROpt a | RStar a | RGrp _ a => cls_all P a
  end.
Fixpoint str_all (P : ascii -> bool) (s : string) : bool :=
  match s with "" => true | String c s' => P c && str_all P s' end.
Lemma str_all_app : forall P a b, str_all P (a ++ b) = str_all P a && str_all P b.
Proof. induction a as [|c a IH]; intros b; cbn; [reflexivity | rewrite IH, andb_assoc; reflexivity]. Qed.
Lemma lang_cls_all : forall P r s, Lang r s -> cls_all P r = true -> str_all P s = true.
Proof.
  intros P; induction 1; intros Hc; cbn [cls_all] in Hc; try reflexivity.
  - rewrite forallb_forall in Hc; specialize (Hc c (all_chars_in c)).
    rewrite H in Hc; cbn [negb orb] in Hc; cbn [str_all]; rewrite Hc; reflexivity.
  - apply andb_true_iff in Hc; destruct Hc; rewrite str_all_app; apply andb_true_iff; auto.
  - apply andb_true_iff in Hc; destruct Hc; auto.
  - apply andb_true_iff in Hc; destruct Hc; auto.
  - auto.
  - rewrite str_all_app; apply andb_true_iff; auto.
  - auto.
Qed.
Lemma all_digits_str_all : forall s, all_digits s = str_all is_digit s.
Proof. induction s as [|c s IH]; cbn; [reflexivity | rewrite IH; reflexivity]. Qed.

(** Languages with finitely many strings of fixed letters: list them. *)
Fixpoint words (r : re) : option (list string) :=
  match r with
  | REps => Some [""]
  | RCls rs => Some (map (fun c => String c "") (filter (fun c => in_cls c rs) all_chars))
  | RSeq a b =>
    match words a, words b with
    | Some x, Some y => Some (flat_map (fun p => map (fun q => p ++ q) y) x)
    | _, _ => None
    end
  | RAlt a b =>
    match words a, words b with Some x, Some y => Some (x ++ y)%list | _, _ => None end
  | ROpt a => match words a with Some x => Some (x ++ [""])%list | None => None end
  | RStar _ => None
  | RGrp _ a => words a
  end.
Lemma lang_words : forall r s, Lang r s -> forall l, words r = Some l -> In s l.
Proof.
  induction 1; intros l Hl; cbn [words] in Hl.
  - inv Hl; left; reflexivity.
  - inv Hl; apply in_map_iff; exists c; split; [reflexivity|].
    apply filter_In; split; [apply all_chars_in | assumption].
  - destruct (words a), (words b); inv Hl.
    apply in_flat_map; exists p; split; [auto|]; apply in_map; auto.
  - destruct (words a), (words b); inv Hl; apply in_or_app; auto.
  - destruct (words a), (words b); inv Hl; apply in_or_app; auto.
  - destruct (words a); inv Hl; apply in_or_app; right; left; reflexivity.
  - destruct (words a); inv Hl; apply in_or_app; auto.
  - discriminate.
  - discriminate.
  - auto.
Qed.

(** Decides whether a finite language is included in a boolean property. *)
Definition words_all (P : string -> bool) (r : re) : bool :=
  match words r with Some l => forallb P l | None => false end.
Lemma lang_words_all : forall P r s, Lang r s -> words_all P r = true -> P s = true.
Proof.
  intros P r s H; unfold words_all; destruct (words r) as [l|] eqn:E; [|discriminate].
  intros A; rewrite forallb_forall in A; apply A; eapply lang_words; eassumption.
Qed.

Ltac lang_len H :=
  let A := fresh "Lmin" in let B := fresh "Lmax" in
  pose proof (lang_minlen _ _ H) as A; pose proof (lang_maxlen _ _ H _ eq_refl) as B;
  cbv in A, B.
Transparent all_chars.
