(** Regular expressions without repetition are finite unions of fixed forms. *)
From Verif Require Import Prim Lib Regex SpecRegex Pf_Regex Pf_Caps SpecForm SpecDecimal Pf_Decimal Pf_Form SpecNumeral.
Local Open Scope string_scope.

Definition cross {A} (x y : list (list A)) : list (list A) := flat_map (fun a => map (fun b => (a ++ b)%list) y) x.
Fixpoint forms (r : re) : option (list (list (list (ascii * ascii)))) :=
  match r with
  | REps => Some [[]]
  | RCls rs => Some [[rs]]
  | RSeq a b => match forms a, forms b with Some x, Some y => Some (cross x y) | _, _ => None end
  | RAlt a b => match forms a, forms b with Some x, Some y => Some (x ++ y)%list | _, _ => None end
  | ROpt a => match forms a with Some x => Some (x ++ [[]])%list | _ => None end
  | RStar _ => None
  | RGrp _ a => forms a
  end.
Definition fits_one (F : list (list (ascii -> bool))) (s : string) : Prop := exists f, In f F /\ fits f s = true.

Lemma in_cross : forall A (x y : list (list A)) c, In c (cross x y) <-> exists a b, In a x /\ In b y /\ c = (a ++ b)%list.
Proof.
  intros A x y c; unfold cross; rewrite in_flat_map; split.
  - intros (a & I & J); apply in_map_iff in J; destruct J as (b & <- & J); eauto.
  - intros (a & b & I & J & ->); exists a; split; [exact I|]; apply in_map_iff; eauto.
Qed.
Lemma forms_lang : forall r l s, forms r = Some l -> (Lang r s <-> exists f, In f l /\ fits (in_form f) s = true).
Proof.
  induction r as [|rs|a IHa b IHb|a IHa b IHb|a IHa|a IHa|n a IHa]; intros l s E; cbn in E; try discriminate E.
  - injection E as <-; split; [intros H; inv H; exists []; cbn; auto|].
    intros (f & [<-|[]] & F); destruct s; [constructor|discriminate F].
  - injection E as <-; split; [intros H; inv H; exists [rs]; cbn; rewrite H1; auto|].
    intros (f & [<-|[]] & F); destruct s as [|c [|d s]]; cbn in F; try discriminate F; [|rewrite andb_false_r in F; discriminate F].
    rewrite andb_true_r in F; constructor; exact F.
  - destruct (forms a) as [x|]; [|discriminate E]; destruct (forms b) as [y|]; [|discriminate E]; injection E as <-; split.
    + intros H; inv H; apply (IHa _ _ eq_refl) in H2; apply (IHb _ _ eq_refl) in H4; destruct H2 as (f & I & F); destruct H4 as (g & J & G).
      exists (f ++ g)%list; split; [apply in_cross; eauto|]; unfold in_form; rewrite map_app; apply fits_app; assumption.
    + intros (f & I & F); apply in_cross in I; destruct I as (u & v & I & J & ->); unfold in_form in F; rewrite map_app in F.
      apply fits_split in F; destruct F as (p & q & -> & A & B); constructor; [eapply IHa | eapply IHb]; eauto.
  - destruct (forms a) as [x|]; [|discriminate E]; destruct (forms b) as [y|]; [|discriminate E]; injection E as <-; split.
    + intros H; inv H; [apply (IHa _ _ eq_refl) in H3 | apply (IHb _ _ eq_refl) in H3]; destruct H3 as (f & I & F); exists f; split; auto; apply in_app_iff; auto.
    + intros (f & I & F); apply in_app_iff in I; destruct I as [I|I]; [apply L_alt1; eapply IHa | apply L_alt2; eapply IHb]; eauto.
  - destruct (forms a) as [x|]; [|discriminate E]; injection E as <-; split.
    + intros H; inv H; [exists []; split; [apply in_app_iff; cbn; auto | reflexivity]|].
      match goal with L : Lang a s |- _ => apply (IHa _ _ eq_refl) in L; destruct L as (f & I & F) end; exists f; split; auto; apply in_app_iff; auto.
    + intros (f & I & F); apply in_app_iff in I; destruct I as [I|[<-|[]]]; [apply L_opt1; eapply IHa; eauto | destruct s; [constructor|discriminate F]].
  - split; [intros H; inv H; eapply IHa; eauto | intros H; constructor; eapply IHa; eauto].
Qed.
Lemma matches_forms : forall pattern l F, forms (rx pattern) = Some l ->
  Forall2 (Forall2 (fun p q => forallb (fun c => Bool.eqb (p c) (q c)) all_chars = true)) (map in_form l) F ->
  forall s, matches pattern s <-> fits_one F s.
Proof.
  intros pattern l F E X s; unfold matches; rewrite (forms_lang _ _ s E); unfold fits_one; clear E; revert F X; induction l as [|f l IH]; intros F X; inv X.
  - split; intros (g & [] & _).
  - specialize (IH _ H3); split.
    + intros (g & [<-|I] & G); [exists y; rewrite <- (fits_ext _ _ s H1); cbn; auto|].
      destruct (proj1 IH (ex_intro _ g (conj I G))) as (h & J & Hh); exists h; cbn; auto.
    + intros (g & [<-|I] & G); [exists f; rewrite (fits_ext _ _ s H1); cbn; auto|].
      destruct (proj2 IH (ex_intro _ g (conj I G))) as (h & J & Hh); exists h; cbn; auto.
Qed.
Ltac forms_tac := eapply matches_forms; [vm_compute; reflexivity | repeat (constructor; [repeat (constructor; [vm_compute; reflexivity|]); constructor|]); constructor].

(** Numerals are runs of digits *)
Lemma numeral_fits : forall n s v, numeral n s v -> fits (repeat digit n) s = true.
Proof.
  intros n s v [L D]; subst n; revert v D; induction s as [|c s IH]; intros v D; [reflexivity|].
  cbn [decimal] in D; destruct (digit_of c) as [d|] eqn:C; [|discriminate D]; destruct (decimal s) as [w|]; [|discriminate D].
  cbn [String.length repeat fits]; rewrite (IH _ eq_refl), andb_true_r.
  clear - C; destruct c as [[] [] [] [] [] [] [] []]; try discriminate C; reflexivity.
Qed.
Lemma fits_numeral : forall n s, fits (repeat digit n) s = true -> exists v, numeral n s v.
Proof.
  unfold numeral; induction n as [|n IH]; intros s F; destruct s as [|c s]; try discriminate F; [exists 0%N; auto|].
  cbn [repeat fits] in F; apply andb_prop in F; destruct F as [C F]; destruct (IH _ F) as (v & L & D).
  cbn [String.length decimal]; rewrite D; destruct (digit_of c) as [d|] eqn:X.
  - eexists; split; [rewrite L; reflexivity | reflexivity].
  - exfalso; clear - C X; destruct c as [[] [] [] [] [] [] [] []]; try discriminate C; discriminate X.
Qed.
(** A fixed text *)
Fixpoint text_form (t : string) : list (ascii -> bool) :=
  match t with "" => [] | String c t' => just c :: text_form t' end.
Lemma fits_text : forall t s, fits (text_form t) s = true <-> s = t.
Proof.
  induction t as [|c t IH]; intros [|d s]; cbn; split; intros H; try discriminate H; try reflexivity.
  - apply andb_prop in H; destruct H as [H1 H2]; unfold just in H1; apply Ascii.eqb_eq in H1; subst; f_equal; apply IH; exact H2.
  - injection H as -> ->; unfold just; rewrite Ascii.eqb_refl; apply IH; reflexivity.
Qed.
