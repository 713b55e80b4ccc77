(** Regular expressions without repetition, and what their groups capture: the finitely many forms
    of the matched texts with the places of the groups. If no text has two forms with different
    places, the text determines what the groups capture. *)
From Coq Require Import Lia.
From Verif Require Import Prim Lib Regex SpecRegex SpecForm SpecDecimal SpecNumeral.
From Verif Require Import Pf_Regex Pf_Caps Pf_Decimal Pf_Form Pf_Numeral Pf_Shapes.
From Verif Require Pf_Decode.
Local Open Scope string_scope.

Definition spot := (nat * (nat * nat))%type.
Definition layout := (list cls * list spot)%type.
Definition shift (k : nat) (l : list spot) : list spot := map (fun x => (fst x, (k + fst (snd x), snd (snd x))))%nat l.
Fixpoint layouts (r : re) : option (list layout) :=
  match r with
  | REps => Some [([], [])]
  | RCls rs => Some [([rs], [])]
  | RSeq a b => match layouts a, layouts b with
                | Some x, Some y => Some (flat_map (fun p => map (fun q => (fst p ++ fst q, shift (List.length (fst p)) (snd q) ++ snd p)) y) x)
                | _, _ => None end
  | RAlt a b => match layouts a, layouts b with Some x, Some y => Some (x ++ y) | _, _ => None end
  | ROpt a => match layouts a with Some x => Some (([], []) :: x) | None => None end
  | RStar _ => None
  | RGrp n a => match layouts a with
                | Some x => Some (map (fun p => (fst p, (n, (0, List.length (fst p))) :: snd p)) x)
                | None => None end
  end%list.
Definition read (l : list spot) (s : string) : caps := map (fun x => (fst x, substring (fst (snd x)) (snd (snd x)) s)) l.
Lemma shift_shift : forall a b l, shift a (shift b l) = shift (a + b) l.
Proof. intros a b l. unfold shift. rewrite map_map. apply map_ext. intros [n [k w]]. cbn. rewrite Nat.add_assoc. reflexivity. Qed.
Lemma shift_app : forall a l k, shift a (l ++ k) = (shift a l ++ shift a k)%list.
Proof. intros. apply map_app. Qed.
Lemma shape_length : forall f s, fits_shape f s = true -> slen s = List.length f.
Proof. intros f s H. apply fits_length in H. rewrite H. unfold in_form. apply map_length. Qed.
Lemma layouts_captures : forall r l s c, layouts r = Some l -> Captures r s c ->
  exists f, In f l /\ fits_shape (fst f) s = true /\ forall pre post, c = read (shift (slen pre) (snd f)) (pre ++ s ++ post).
Proof.
  induction r as [|rs|a IHa b IHb|a IHa b IHb|a IHa|a IHa|n a IHa]; intros l s c E H; cbn in E; try discriminate E.
  - injection E as <-. inv H. exists ([], []). cbn. auto.
  - injection E as <-. inv H. exists ([rs], []). cbn. unfold fits_shape. cbn. rewrite H1. auto.
  - destruct (layouts a) as [x|]; [|discriminate E]; destruct (layouts b) as [y|]; [|discriminate E]; injection E as <-.
    apply Pf_Decode.cap_seq in H. destruct H as (p & q & cp & cq & -> & -> & A & B).
    apply (IHa _ _ _ eq_refl) in A. apply (IHb _ _ _ eq_refl) in B. destruct A as (f & If & Ff & Cf). destruct B as (g & Ig & Fg & Cg).
    exists ((fst f ++ fst g)%list, (shift (List.length (fst f)) (snd g) ++ snd f)%list). split.
    + apply in_flat_map. exists f. split; [exact If|]. apply in_map_iff. exists g. auto.
    + cbn [fst snd]. split; [apply shape_app; assumption|]. intros pre post. unfold read. rewrite shift_app, map_app. f_equal.
      * rewrite (Cg (pre ++ p) post), shift_shift, slen_app, (shape_length _ _ Ff), !sapp_assoc. reflexivity.
      * rewrite (Cf pre (q ++ post)), !sapp_assoc. reflexivity.
  - destruct (layouts a) as [x|]; [|discriminate E]; destruct (layouts b) as [y|]; [|discriminate E]; injection E as <-.
    apply Pf_Decode.cap_alt in H. destruct H as [H|H].
    + apply (IHa _ _ _ eq_refl) in H. destruct H as (f & If & F). exists f. rewrite in_app_iff. auto.
    + apply (IHb _ _ _ eq_refl) in H. destruct H as (f & If & F). exists f. rewrite in_app_iff. auto.
  - destruct (layouts a) as [x|]; [|discriminate E]; injection E as <-. apply Pf_Decode.cap_opt in H. destruct H as [[-> ->]|H].
    + exists ([], []). cbn. auto.
    + apply (IHa _ _ _ eq_refl) in H. destruct H as (f & If & F). exists f. cbn [In]. auto.
  - destruct (layouts a) as [x|]; [|discriminate E]; injection E as <-. apply Pf_Decode.cap_grp in H. destruct H as (cp & -> & H).
    apply (IHa _ _ _ eq_refl) in H. destruct H as (f & If & F & C). eexists. split; [apply in_map_iff; exists f; split; [reflexivity|exact If]|].
    cbn [fst snd]. split; [exact F|]. intros pre post. cbn [shift map fst snd read]; unfold read; cbn [map fst snd]. f_equal; [|apply C].
    rewrite Nat.add_0_r. destruct f as [ff sf]. cbn [fst snd] in *. rewrite <- (shape_length _ _ F). rewrite substring_mid. reflexivity.
Qed.
(** No text has both forms. *)
Definition no_common (a b : cls) : bool :=
  forallb (fun x => forallb (fun y => N.ltb (code (snd x)) (code (fst y)) || N.ltb (code (snd y)) (code (fst x))) b) a.
Lemma no_common_in : forall a b c, no_common a b = true -> in_cls c a = true -> in_cls c b = true -> False.
Proof.
  intros a b c N A B. unfold in_cls in A, B. apply existsb_exists in A. apply existsb_exists in B. destruct A as (x & Ix & X), B as (y & Iy & Y).
  unfold no_common in N. rewrite forallb_forall in N. specialize (N _ Ix). rewrite forallb_forall in N. specialize (N _ Iy).
  unfold in_range in X, Y. apply andb_prop in X. apply andb_prop in Y. destruct X as [X1 X2], Y as [Y1 Y2].
  apply N.leb_le in X1, X2, Y1, Y2. apply Bool.orb_true_elim in N. destruct N as [N|N]; apply N.ltb_lt in N; lia.
Qed.
Fixpoint apart (f g : list cls) : bool :=
  match f, g with
  | [], [] => false
  | a :: f, b :: g => if no_common a b then true else apart f g
  | _, _ => true
  end.
Lemma apart_fits : forall f g s, apart f g = true -> fits_shape f s = true -> fits_shape g s = true -> False.
Proof.
  induction f as [|a f IH]; intros [|b g] [|c s] A F G; try discriminate.
  unfold fits_shape in *. cbn in F, G. apply andb_prop in F. apply andb_prop in G. destruct F as [F1 F2], G as [G1 G2].
  cbn [apart] in A. destruct (no_common a b) eqn:R; [eapply no_common_in; eassumption|eapply IH; eassumption].
Qed.
Definition spot_eqb (a b : spot) : bool := Nat.eqb (fst a) (fst b) && (Nat.eqb (fst (snd a)) (fst (snd b)) && Nat.eqb (snd (snd a)) (snd (snd b))).
Fixpoint spots_eqb (a b : list spot) : bool :=
  match a, b with
  | [], [] => true
  | x :: a, y :: b => spot_eqb x y && spots_eqb a b
  | _, _ => false
  end.
Lemma spots_eq : forall a b, spots_eqb a b = true -> a = b.
Proof.
  induction a as [|[x [y z]] a IH]; intros [|[x' [y' z']] b] H; try discriminate; [reflexivity|].
  cbn in H. apply andb_prop in H. destruct H as [H1 H2]. unfold spot_eqb in H1. cbn in H1.
  apply andb_prop in H1. destruct H1 as [X H1]. apply andb_prop in H1. destruct H1 as [Y Z].
  apply Nat.eqb_eq in X, Y, Z. subst. f_equal. apply IH. exact H2.
Qed.
Definition unambiguous (r : re) : bool :=
  match layouts r with
  | Some l => forallb (fun f => forallb (fun g => if spots_eqb (snd f) (snd g) then true else apart (fst f) (fst g)) l) l
  | None => false
  end.
Lemma captures_unique : forall r s m m', unambiguous r = true -> Captures r s m -> Captures r s m' -> m = m'.
Proof.
  intros r s m m' U A B. unfold unambiguous in U. destruct (layouts r) as [l|] eqn:E; [|discriminate].
  destruct (layouts_captures _ _ _ _ E A) as (f & If & Ff & Cf). destruct (layouts_captures _ _ _ _ E B) as (g & Ig & Fg & Cg).
  rewrite forallb_forall in U. specialize (U _ If). rewrite forallb_forall in U. specialize (U _ Ig).
  destruct (spots_eqb (snd f) (snd g)) eqn:Q.
  - apply spots_eq in Q. rewrite (Cf "" ""), (Cg "" ""), Q. reflexivity.
  - destruct (apart_fits _ _ _ U Ff Fg).
Qed.
Lemma captured : forall r s m, unambiguous r = true -> Captures r s m -> regex_match r s = Some m.
Proof.
  intros r s m U C. assert (M : is_match r s = true) by (apply is_match_lang; eapply captures_lang; exact C).
  unfold is_match in M. destruct (regex_match r s) as [m'|] eqn:R; [|discriminate M]. f_equal. symmetry.
  eapply captures_unique; [exact U|exact C|apply regex_match_captures; exact R].
Qed.

(** Building the captures of a text written as the pieces of the expression *)
Lemma flat_cap : forall a s, Pf_Decode.flat a = true -> Lang a s -> Captures a s [].
Proof. intros a s F L. destruct (lang_captures _ _ L) as (c & C). destruct (Pf_Decode.cap_flat _ _ _ F C) as [-> _]. exact C. Qed.
Lemma numeral_lang : forall n s v r, numeral n s v -> flat r = Some (repeat digit_cls n) -> Lang r s.
Proof. intros n s v r N F. apply (flat_lang _ _ _ F). exact (numeral_shape _ _ _ N). Qed.
Lemma closed_lang : forall r s, is_match r s = true -> Lang r s.
Proof. intros r s. apply is_match_lang. Qed.
Ltac lang_now := first [assumption
  | match goal with N : numeral _ ?x _ |- Lang _ ?x => apply (numeral_lang _ _ _ _ N); reflexivity end
  | apply closed_lang; vm_compute; reflexivity].
Ltac cap :=
  lazymatch goal with
  | |- Captures (ROpt _) "" _ => apply K_opt0
  | |- Captures ?r ?x _ =>
    first [ assumption
      | apply flat_cap; [reflexivity | solve [lang_now]]
      | lazymatch r with
        | RSeq _ _ => eapply K_seq; cap
        | RGrp _ _ => eapply K_grp; cap
        | ROpt _ => eapply K_opt1; cap
        end ]
  end.
Lemma captured_as : forall r s m m', unambiguous r = true -> Captures r s m -> m = m' -> regex_match r s = Some m'.
Proof. intros r s m m' U C <-. exact (captured _ _ _ U C). Qed.
Ltac cap_match := eapply captured_as; [vm_compute; reflexivity | lazymatch goal with |- Captures ?r _ _ => try unfold r end; cap | reflexivity].
(** No text matches both expressions. *)
Definition exclusive (a b : re) : bool :=
  match shapes a, shapes b with
  | Some l, Some k => forallb (fun f => forallb (fun g => apart f g) k) l
  | _, _ => false
  end.
Lemma exclusive_lang : forall a b s, exclusive a b = true -> Lang a s -> Lang b s -> False.
Proof.
  intros a b s E A B. unfold exclusive in E. destruct (shapes a) as [l|] eqn:La; [|discriminate]. destruct (shapes b) as [k|] eqn:Lb; [|discriminate].
  apply (shapes_lang _ _ _ La) in A. apply (shapes_lang _ _ _ Lb) in B. destruct A as (f & If & Ff), B as (g & Ig & Fg).
  rewrite forallb_forall in E. specialize (E _ If). rewrite forallb_forall in E. specialize (E _ Ig). exact (apart_fits _ _ _ E Ff Fg).
Qed.
Lemma exclusive_match : forall a b s, exclusive a b = true -> Lang a s -> regex_match b s = None.
Proof.
  intros a b s E A. destruct (regex_match b s) as [m|] eqn:R; [|reflexivity]. apply regex_match_captures, captures_lang in R.
  destruct (exclusive_lang _ _ _ E A R).
Qed.
Lemma matched_lang : forall r s m, regex_match r s = Some m -> Lang r s.
Proof. intros r s m H. eapply captures_lang, regex_match_captures. exact H. Qed.
Lemma not_word : forall r s w, is_match r w = false -> Lang r s -> seqb s w = false.
Proof.
  intros r s w M L. destruct (seqb s w) eqn:E; [|reflexivity]. apply seqb_eq in E. subst. apply is_match_lang in L. congruence.
Qed.
Ltac in_words H X := lazymatch type of H with Lang ?r ?s =>
  let w := eval vm_compute in (words r) in lazymatch w with Some ?l =>
    assert (X : In s l) by (apply (lang_words r s H l); vm_compute; reflexivity); cbn [In] in X end end.
