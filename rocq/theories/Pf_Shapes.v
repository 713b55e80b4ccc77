(** Regular expressions without repetition: the finitely many forms of the texts they match. *)
From Coq Require Import Lia.
From Verif Require Import Prim Lib Regex SpecRegex SpecForm SpecDecimal SpecNumeral.
From Verif Require Import Pf_Regex Pf_Caps Pf_Decimal Pf_Form Pf_Numeral.
Local Open Scope string_scope.

Definition cls := list (ascii * ascii).
Fixpoint shapes (r : re) : option (list (list cls)) :=
  match r with
  | REps => Some [[]]
  | RCls rs => Some [[rs]]
  | RSeq a b => match shapes a, shapes b with
                | Some x, Some y => Some (flat_map (fun p => map (fun q => p ++ q) y) x)
                | _, _ => None end
  | RAlt a b => match shapes a, shapes b with Some x, Some y => Some (x ++ y) | _, _ => None end
  | ROpt a => match shapes a with Some x => Some ([] :: x) | None => None end
  | RStar _ => None
  | RGrp _ a => shapes a
  end%list.
Definition fits_shape (l : list cls) (s : string) : bool := fits (in_form l) s.
Lemma shapes_lang : forall r l s, shapes r = Some l -> (Lang r s <-> exists f, In f l /\ fits_shape f s = true).
Proof.
  unfold fits_shape.
  induction r as [|rs|a IHa b IHb|a IHa b IHb|a IHa|a IHa|n a IHa]; intros l s E; cbn in E; try discriminate E.
  - injection E as <-; split; [intros H; inv H; exists []; cbn; auto|].
    intros (f & [<-|[]] & F). destruct s; [constructor | discriminate].
  - injection E as <-; split; [intros H; inv H; exists [rs]; cbn; rewrite H1; auto|].
    intros (f & [<-|[]] & F). destruct s as [|c [|d s]]; cbn in F; try discriminate; [|rewrite andb_false_r in F; discriminate].
    rewrite andb_true_r in F; constructor; exact F.
  - destruct (shapes a) as [x|]; [|discriminate E]; destruct (shapes b) as [y|]; [|discriminate E]; injection E as <-.
    split.
    + intros H; inv H. match goal with A : Lang a ?p, B : Lang b ?q |- _ => apply (IHa x p eq_refl) in A; apply (IHb y q eq_refl) in B;
        destruct A as (f & If & Ff), B as (g & Ig & Fg) end. exists (f ++ g)%list. split.
      * apply in_flat_map. exists f. split; [exact If|]. apply in_map. exact Ig.
      * unfold in_form. rewrite map_app. apply fits_app; assumption.
    + intros (h & Ih & Fh). apply in_flat_map in Ih. destruct Ih as (f & If & Ih). apply in_map_iff in Ih.
      destruct Ih as (g & <- & Ig). unfold in_form in Fh. rewrite map_app in Fh. apply fits_split in Fh.
      destruct Fh as (p & q & -> & A & B). constructor; [apply (IHa x p eq_refl)|apply (IHb y q eq_refl)]; eauto.
  - destruct (shapes a) as [x|]; [|discriminate E]; destruct (shapes b) as [y|]; [|discriminate E]; injection E as <-.
    split.
    + intros H; inv H.
      * match goal with A : Lang a s |- _ => apply (IHa x s eq_refl) in A; destruct A as (f & If & Ff) end. exists f. rewrite in_app_iff. auto.
      * match goal with A : Lang b s |- _ => apply (IHb y s eq_refl) in A; destruct A as (f & If & Ff) end. exists f. rewrite in_app_iff. auto.
    + intros (f & If & Ff). apply in_app_iff in If. destruct If as [If|If].
      * apply L_alt1. apply (IHa x s eq_refl). eauto.
      * apply L_alt2. apply (IHb y s eq_refl). eauto.
  - destruct (shapes a) as [x|]; [|discriminate E]; injection E as <-. split.
    + intros H; inv H; [exists []; cbn; auto|].
      match goal with A : Lang a s |- _ => apply (IHa x s eq_refl) in A; destruct A as (f & If & Ff) end. exists f. cbn; auto.
    + intros (f & [<-|If] & Ff); [destruct s; [constructor|discriminate Ff]|].
      apply L_opt1. apply (IHa x s eq_refl). eauto.
  - split; [intros H; inv H; apply (IHa l s E); auto | intros H; constructor; apply (IHa l s E); exact H].
Qed.
Lemma shape_match : forall r l f s, shapes r = Some l -> In f l -> fits_shape f s = true -> exists m, regex_match r s = Some m /\ Captures r s m.
Proof.
  intros r l f s E I F. assert (M : is_match r s = true) by (apply is_match_lang, (shapes_lang r l s E); eauto).
  unfold is_match in M. destruct (regex_match r s) as [m|] eqn:R; [|discriminate]. exists m. split; [reflexivity|].
  apply regex_match_captures. exact R.
Qed.

Definition digit_cls : cls := [("0", "9")]%char.
Lemma numeral_shape : forall n s v, numeral n s v -> fits_shape (repeat digit_cls n) s = true.
Proof.
  unfold fits_shape.
  induction n as [|n IH]; intros s v [L D]; destruct s as [|c s]; try discriminate L; [reflexivity|].
  injection L as L. cbn [decimal] in D. destruct (digit_of c) as [d|] eqn:E; [|discriminate].
  destruct (decimal s) as [x|] eqn:X; [|discriminate]. specialize (IH s x (conj L X)). cbn [repeat in_form map fits].
  unfold in_form in IH. rewrite IH, andb_true_r.
  clear - E. destruct c as [[] [] [] [] [] [] [] []]; vm_compute in E; try discriminate E; reflexivity.
Qed.
Lemma shape_app : forall f g s t, fits_shape f s = true -> fits_shape g t = true -> fits_shape (f ++ g)%list (s ++ t) = true.
Proof. intros f g s t F G. unfold fits_shape, in_form. rewrite map_app. apply fits_app; assumption. Qed.
