(** The matcher agrees with the declarative meaning of regular expressions. *)
From Verif Require Import Prim Regex Lib SpecRegex.
Local Open Scope string_scope.

Definition star_go (a : re) :=
  fix go (n : nat) (s : string) (c : caps) : list (string * caps) :=
       match n with
       | O => [(s, c)]
       | S n' =>
         flat_map (fun sc => if Nat.ltb (slen (fst sc)) (slen s)
                             then go n' (fst sc) (snd sc) else [])
                  (run a s c)
         ++ [(s, c)]
       end%list.
Lemma run_star : forall a s c, run (RStar a) s c = star_go a (slen s) s c.
Proof. reflexivity. Qed.

Lemma substring_prefix : forall p rest, substring 0 (slen (p ++ rest) - slen rest) (p ++ rest) = p.
Proof.
  intros p rest; rewrite slen_app; replace (slen p + slen rest - slen rest) with (slen p) by lia.
  apply substring0_app.
Qed.

Definition run_sound_at (a : re) : Prop :=
  forall s c rest c', In (rest, c') (run a s c) ->
    exists p cp, s = p ++ rest /\ c' = (cp ++ c)%list /\ Captures a p cp.

Lemma star_sound : forall a, run_sound_at a ->
  forall n s c rest c', In (rest, c') (star_go a n s c) ->
    exists p cp, s = p ++ rest /\ c' = (cp ++ c)%list /\ Captures (RStar a) p cp.
Proof.
  intros a Ha; induction n as [|n IH]; intros s c rest c' H; cbn [star_go] in H.
  - destruct H as [H|[]]; inv H; exists "", []; repeat split; constructor.
  - apply in_app_iff in H; destruct H as [H|H]; [|cbn in H; destruct H as [H|[]]].
    + apply in_flat_map in H; destruct H as ([r1 c1] & H1 & H2); cbn [fst snd] in H2.
      destruct (Nat.ltb (slen r1) (slen s)) eqn:E; [|contradiction].
      apply Nat.ltb_lt in E.
      apply Ha in H1; destruct H1 as (p & cp & -> & -> & Hp).
      apply IH in H2; destruct H2 as (q & cq & -> & -> & Hq).
      exists (p ++ q), (cq ++ cp)%list; rewrite app_assoc_s, app_assoc; repeat split.
      constructor; auto. intros ->; cbn [String.append] in E; lia.
    + inv H; exists "", []; repeat split; constructor.
Qed.

Lemma run_sound : forall r, run_sound_at r.
Proof.
  induction r as [|rs|a IHa b IHb|a IHa b IHb|a IHa|a IHa|n a IHa]; intros s c rest c' H.
  - destruct H as [H|[]]; inv H; exists "", []; repeat split; constructor.
  - cbn in H; destruct s as [|x s]; [contradiction|]; destruct (in_cls x rs) eqn:E; [|contradiction].
    destruct H as [H|[]]; inv H; exists (String x ""), []; repeat split; constructor; exact E.
  - cbn in H; apply in_flat_map in H; destruct H as ([r1 c1] & H1 & H2); cbn [fst snd] in H2.
    apply IHa in H1; destruct H1 as (p & cp & -> & -> & Hp).
    apply IHb in H2; destruct H2 as (q & cq & -> & -> & Hq).
    exists (p ++ q), (cq ++ cp)%list; rewrite app_assoc_s, app_assoc; repeat split.
    constructor; auto.
  - cbn in H; apply in_app_iff in H; destruct H as [H|H];
      [apply IHa in H | apply IHb in H]; destruct H as (p & cp & -> & -> & Hp);
      exists p, cp; repeat split; [constructor 4 | constructor 5]; exact Hp.
  - cbn in H; apply in_app_iff in H; destruct H as [H|H]; [|cbn in H; destruct H as [H|[]]].
    + apply IHa in H; destruct H as (p & cp & -> & -> & Hp).
      exists p, cp; repeat split; constructor; exact Hp.
    + inv H; exists "", []; repeat split; constructor.
  - rewrite run_star in H; eapply star_sound; eauto.
  - cbn in H; apply in_map_iff in H; destruct H as ([r1 c1] & H1 & H2); cbn [fst snd] in H1; inv H1.
    apply IHa in H2; destruct H2 as (p & cp & -> & -> & Hp).
    exists p, ((n, p) :: cp); rewrite substring_prefix; repeat split; constructor; exact Hp.
Qed.

Definition run_complete_at (a : re) : Prop :=
  forall p cp rest c, Captures a p cp -> In (rest, (cp ++ c)%list) (run a (p ++ rest) c).

Lemma star_complete : forall a, run_complete_at a ->
  forall r p cp, Captures r p cp -> r = RStar a ->
  forall n rest c, slen p <= n -> In (rest, (cp ++ c)%list) (star_go a n (p ++ rest) c).
Proof.
  intros a Ha r p cp H; induction H; intros E; inv E; intros k rest cc Hn.
  - destruct k; cbn; [auto | apply in_app_iff; right; cbn; auto].
  - destruct k as [|k]; [rewrite slen_app in Hn; destruct p; [congruence | slia] |].
    cbn [star_go]; apply in_app_iff; left.
    apply in_flat_map; exists (q ++ rest, (ca ++ cc)%list); split.
    + rewrite app_assoc_s; apply Ha; exact H.
    + cbn [fst snd]. rewrite !slen_app.
      assert (slen p <> 0) by (intros Z; apply slen_zero in Z; congruence).
      rewrite (proj2 (Nat.ltb_lt _ _)) by lia.
      rewrite <- app_assoc; apply IHCaptures2; [reflexivity|].
      rewrite slen_app in Hn; lia.
Qed.

Lemma run_complete : forall r, run_complete_at r.
Proof.
  induction r as [|rs|a IHa b IHb|a IHa b IHb|a IHa|a IHa|n a IHa]; intros p cp rest c H.
  - inv H; cbn; auto.
  - inv H; cbn; rewrite H1; left; reflexivity.
  - inv H; cbn; apply in_flat_map; exists (q ++ rest, (ca ++ c)%list); split.
    + rewrite app_assoc_s; apply IHa; assumption.
    + cbn [fst snd]; rewrite <- app_assoc; apply IHb; assumption.
  - cbn; apply in_app_iff; inv H; [left; apply IHa | right; apply IHb]; assumption.
  - cbn; apply in_app_iff; inv H; [right; cbn; auto | left; apply IHa; assumption].
  - rewrite run_star; eapply star_complete; eauto; rewrite slen_app; lia.
  - inv H; cbn. apply in_map_iff; exists (rest, (c0 ++ c)%list); split.
    + cbn [fst snd]; rewrite substring_prefix; reflexivity.
    + apply IHa; assumption.
Qed.

Lemma regex_match_captures : forall r s m, regex_match r s = Some m -> Captures r s m.
Proof.
  intros r s m H; unfold regex_match in H.
  destruct (find _ _) as [[rest c]|] eqn:E; [|discriminate]; inv H.
  apply find_some in E; destruct E as [Hin He]; cbn in He.
  apply sempty_true in He; subst rest.
  apply run_sound in Hin; destruct Hin as (p & cp & -> & E & Hp).
  rewrite app_empty_r; cbn; rewrite E, app_nil_r; exact Hp.
Qed.

Lemma captures_regex_match : forall r s m, Captures r s m -> exists m', regex_match r s = Some m'.
Proof.
  intros r s m H; unfold regex_match.
  destruct (find _ _) as [[rest c]|] eqn:E; [eauto|].
  exfalso; pose proof (run_complete r s m "" [] H) as Hin.
  rewrite app_empty_r in Hin.
  apply (find_none _ _ E) in Hin; cbn in Hin; discriminate.
Qed.

Lemma captures_lang : forall r s c, Captures r s c -> Lang r s.
Proof. intros r s c H; induction H; try (constructor; assumption). Qed.

Lemma lang_captures : forall r s, Lang r s -> exists c, Captures r s c.
Proof.
  intros r s H; induction H.
  - eexists; constructor.
  - eexists; constructor; assumption.
  - destruct IHLang1, IHLang2; eexists; constructor; eauto.
  - destruct IHLang; eexists; constructor 4; eauto.
  - destruct IHLang; eexists; constructor 5; eauto.
  - eexists; constructor.
  - destruct IHLang; eexists; apply K_opt1; eauto.
  - eexists; constructor.
  - destruct IHLang1 as [c1 H1], IHLang2 as [c2 H2].
    destruct p as [|x p]; [exists c2; exact H2|].
    eexists; apply K_star1; [exact H1 | discriminate | exact H2].
  - destruct IHLang; eexists; constructor; eauto.
Qed.

Lemma is_match_lang : forall r s, is_match r s = true <-> Lang r s.
Proof.
  intros r s; unfold is_match; split.
  - intros H; destruct (regex_match r s) as [m|] eqn:E; [|discriminate].
    eapply captures_lang, regex_match_captures; eauto.
  - intros H; apply lang_captures in H; destruct H as [c H].
    apply captures_regex_match in H; destruct H as [m ->]; reflexivity.
Qed.

Lemma regex_match_none : forall r s, regex_match r s = None <-> ~ Lang r s.
Proof.
  intros r s; rewrite <- is_match_lang; unfold is_match; destruct (regex_match r s); cbn; split;
    intros; try congruence; try tauto.
Qed.

(** ** Inverting a match against a known expression *)

Lemma in_cls_one : forall c d, in_cls c [(d, d)] = true -> c = d.
Proof.
  intros c d H; unfold in_cls, in_range in H; cbn in H; rewrite orb_false_r in H.
  apply andb_true_iff in H; destruct H as [A B]; apply N.leb_le in A, B.
  assert (E : code c = code d) by lia; unfold code in E.
  rewrite <- (ascii_N_embedding c), <- (ascii_N_embedding d), E; reflexivity.
Qed.
Lemma in_cls_digit : forall c, in_cls c [("0"%char, "9"%char)] = true -> is_digit c = true.
Proof.
  intros c H; unfold in_cls, in_range in H; cbn in H; rewrite orb_false_r in H; exact H.
Qed.
