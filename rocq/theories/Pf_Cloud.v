(** Cloud types in remarks *)
From Verif Require Import Prim Lib Regex Float Values Weather SpecRegex Pf_Regex SpecForm SpecDecimal Pf_Decimal Pf_Form SpecNumeral Pf_Numeral Pf_Values1 Pf_Values2 Pf_Forms Pf_Formats SpecCloud.
From Coq Require Import Lia ZifyBool ZifyN ZifyNat.
Local Open Scope string_scope.

Lemma split_last : forall s, s <> "" -> exists t c, s = t ++ String c "".
Proof.
  induction s as [|a s IH]; intros H; [congruence|]; destruct s as [|b s]; [exists "", a; reflexivity|].
  destruct IH as (t & c & E); [discriminate|]; exists (String a t), c; rewrite E; reflexivity.
Qed.
Lemma lookup_codes : forall A (l : list (string * A)) s v, lookup s l = Some v -> In (s, v) l.
Proof.
  induction l as [|[k x] l IH]; intros s v H; [discriminate H|]; cbn in H |- *.
  destruct (seqb s k) eqn:E; [apply seqb_eq in E; injection H as <-; subst; auto | auto].
Qed.
Lemma digit_numeral : forall c, is_digit c = true -> numeral 1 (String c "") (code c - 48).
Proof. intros c H; split; [reflexivity|]; destruct c as [[] [] [] [] [] [] [] []]; try discriminate H; reflexivity. Qed.
Lemma numeral_digit : forall o v, numeral 1 o v -> exists c, o = String c "" /\ is_digit c = true /\ v = (code c - 48)%N.
Proof.
  intros o v [L D]; destruct o as [|c [|d o]]; try discriminate L; exists c; split; [reflexivity|].
  destruct c as [[] [] [] [] [] [] [] []]; try discriminate D; split; [reflexivity | cbn in D; injection D as <-; reflexivity | reflexivity | cbn in D; injection D as <-; reflexivity | reflexivity| cbn in D; injection D as <-; reflexivity| reflexivity| cbn in D; injection D as <-; reflexivity| reflexivity| cbn in D; injection D as <-; reflexivity| reflexivity| cbn in D; injection D as <-; reflexivity| reflexivity| cbn in D; injection D as <-; reflexivity| reflexivity| cbn in D; injection D as <-; reflexivity| reflexivity| cbn in D; injection D as <-; reflexivity| reflexivity| cbn in D; injection D as <-; reflexivity].
Qed.
Lemma type_known : forall s t, CloudType_cloudTypeFromString s = t -> CtType_beq t Ct_NOT_REPORTED = false -> In (s, t) cloud_codes.
Proof.
  intros s t E N; unfold CloudType_cloudTypeFromString in E; destruct (lookup s ct_table) as [x|] eqn:L; subst t; [|discriminate N].
  apply lookup_codes in L; exact L.
Qed.
Lemma kind_known : forall s t, CloudType_cloudTypeOrObscurationFromString s = t -> CtType_beq t Ct_NOT_REPORTED = false -> In (s, t) (cloud_codes ++ obscuration_codes).
Proof.
  intros s t E N; unfold CloudType_cloudTypeOrObscurationFromString in E; apply in_app_iff.
  destruct (lookup s ct_table) as [x|] eqn:L; [subst t; apply lookup_codes in L; auto|].
  destruct (lookup s ct_obsc_table) as [x|] eqn:M; [subst t; apply lookup_codes in M; auto|].
  subst t; discriminate N.
Qed.
Ltac each_code I :=
  repeat match type of I with
  | _ \/ _ => destruct I as [I|I]; [injection I as <- <-|]
  end; try contradiction.
Lemma cloud_type_parse : forall s c, CloudType_fromString s = Ok (Some c) <-> CloudText s c.
Proof.
  intros s c; split.
  - intros H; unfold CloudType_fromString in H; destruct s as [|a r]; [discriminate H|].
    cbn [sempty] in H; change (sget (String a r) 0) with (@Ok ascii a) in H; cbn [bind] in H; destruct (is_digit a) eqn:Da.
    + destruct (negb (Nat.eqb (slen (String a r)) 6) && negb (Nat.eqb (slen (String a r)) 7)) eqn:L; [discriminate H|].
      assert (R : (slen r = 5 \/ slen r = 6)%nat) by (cbn [slen String.length] in L; change (String.length r) with (slen r) in L; clear H; lia).
      clear L; destruct R as [R|R]; explode; cbn [slen String.length Nat.sub] in H; unfold substr_from, substr in H; cbn [slen String.length Nat.leb substring bind] in H;
        destruct (Distance_fromHeightString _) as [[d|]|] eqn:Hd in H; try discriminate H; cbn [bind] in H;
        destruct (Distance_isReported d) eqn:Rd; [|discriminate H| |discriminate H]; cbn [negb] in H;
        apply height_parse in Hd; destruct Hd as [[_ ->]|(v & N & ->)]; try discriminate Rd;
        destruct (CtType_beq _ _) eqn:Tk in H; try discriminate H; injection H as <-;
        match type of N with numeral 3 ?h v =>
          match type of Tk with context [CloudType_cloudTypeFromString ?code] =>
            exact (Cloud_with_height (String a "") code h _ _ v (digit_numeral _ Da) (type_known _ _ eq_refl Tk) N)
          end end.
    + destruct (split_last (String a r)) as (t & o & E); [discriminate|]; rewrite E in *; clear E.
      assert (Ln : slen (t ++ String o "") = S (slen t)) by (rewrite slen_app; cbn; lia).
      destruct (Nat.ltb (slen (t ++ String o "")) 3) eqn:L3; [discriminate H|].
      rewrite Ln in H; replace (S (slen t) - 1)%nat with (slen t) in H by lia.
      rewrite (sget_sdrop_cons _ _ o "") in H by (rewrite sdrop_app; reflexivity); cbn [bind] in H.
      destruct (is_digit o) eqn:Do; [|discriminate H]; cbn [negb] in H.
      unfold substr in H; cbn [Nat.leb] in H; rewrite substring0_app in H; cbn [bind] in H.
      destruct (CtType_beq _ _) eqn:Tk in H; try discriminate H; injection H as <-.
      exact (Cloud_without_height t (String o "") _ _ (kind_known _ _ eq_refl Tk) (digit_numeral _ Do)).
  - intros [o cd h t okta v O I N|cd o t okta I O].
    + destruct (numeral_digit _ _ O) as (x & -> & Dx & ->); pose proof (proj2 (height_parse h _) (or_intror (ex_intro _ v (conj N eq_refl)))) as Hd.
      destruct N as [Ln _]; explode; cbn [In cloud_codes] in I; unfold CloudType_fromString; cbn [sempty append].
      each_code I; cbn [append]; change (sget (String x ?r) 0) with (@Ok ascii x); cbn [bind sget String.get]; rewrite Dx;
        unfold substr_from, substr; cbn [slen String.length Nat.eqb negb andb Nat.sub Nat.leb substring bind]; rewrite Hd; reflexivity.
    + destruct (numeral_digit _ _ O) as (x & -> & Dx & ->); cbn [In cloud_codes obscuration_codes app] in I; unfold CloudType_fromString.
      each_code I; cbn [append]; cbn [bind sget String.get sempty]; cbn [is_digit]; unfold substr; cbn [slen String.length Nat.ltb Nat.leb Nat.sub substring bind sget String.get];
        change (is_digit _) with false at 1; cbn iota; rewrite Dx; reflexivity.
Qed.
Lemma cloud_format : forall s, accepted (CloudType_fromString s) -> matches "(\d)([A-Z][A-Z][A-Z]?)(\d\d\d)" s \/ matches "([A-Z][A-Z]+)(\d)" s.
Proof.
  assert (M : forall s, matches "(\d)([A-Z][A-Z][A-Z]?)(\d\d\d)" s <-> fits_one [[digit; letter; letter; letter; digit; digit; digit]; [digit; letter; letter; digit; digit; digit]] s) by forms_tac.
  intros s (c & H); apply cloud_type_parse in H; destruct H as [o cd h t okta v O I N|cd o t okta I O].
  - left; rewrite M; destruct (numeral_digit _ _ O) as (x & -> & Dx & _); pose proof (numeral_fits _ _ _ O) as F1; pose proof (numeral_fits _ _ _ N) as F3.
    destruct N as [Ln _]; explode; cbn [In cloud_codes] in I; cbn [repeat fits] in F1, F3.
    each_code I; cbn [append];
      first [apply fits_here; cbn [fits]; bool_facts; repeat match goal with H : digit ?x = true |- _ => rewrite H end; reflexivity
            |apply fits_there, fits_here; cbn [fits]; bool_facts; repeat match goal with H : digit ?x = true |- _ => rewrite H end; reflexivity].
  - right; destruct (numeral_digit _ _ O) as (x & -> & Dx & _); cbn [In cloud_codes obscuration_codes app] in I.
    assert (K : forall x, is_digit x = true -> forallb (fun p => is_match (rx "([A-Z][A-Z]+)(\d)") (fst p ++ String x "")) (cloud_codes ++ obscuration_codes) = true).
    { intros y Hy; destruct y as [[] [] [] [] [] [] [] []]; try discriminate Hy; vm_compute; reflexivity. }
    specialize (K x Dx); rewrite forallb_forall in K; apply is_match_lang; apply (K (cd, t)); exact I.
Qed.
