(** Lemmas and tactics about the value parsers. *)
From Verif Require Import Prim Lib Regex Float Values SpecRegex Pf_Regex Pf_Caps SpecForm SpecDecimal Pf_Decimal Pf_Form SpecNumeral.
Local Open Scope string_scope.

Lemma slen_S : forall s n, slen s = S n -> exists c t, s = String c t /\ slen t = n.
Proof. intros [|c t] n H; [discriminate H|]; injection H as H; eauto. Qed.
Lemma slen_O : forall s, slen s = 0%nat -> s = "".
Proof. intros [|c t] H; [reflexivity | discriminate H]. Qed.
Ltac explode :=
  repeat match goal with
  | H : slen ?s = S _ |- _ => is_var s; let c := fresh "c" in let t := fresh "t" in let E := fresh "E" in
      apply slen_S in H; destruct H as (c & t & E & H); subst s
  | H : slen ?s = O |- _ => is_var s; apply slen_O in H; subst s
  | H : String.length ?s = ?n |- _ => is_var s; change (slen s = n) in H
  end.
Lemma strToUint9 : forall s p n, (1 <= n <= 9)%nat -> (p + n <= slen s)%nat ->
  strToUint s p n = Ok (decimal (substring p n s)).
Proof.
  intros s p n Hn Hl; rewrite strToUint_spec.
  replace (Nat.eqb n 0) with false by (symmetry; apply Nat.eqb_neq; lia).
  replace (Nat.ltb (slen s) (p + n)) with false by (symmetry; apply Nat.ltb_ge; lia); cbn [orb].
  destruct (decimal (substring p n s)) as [v|] eqn:D; [|reflexivity].
  apply decimal_bound in D; rewrite substring_len in D; replace (Nat.min n (slen s - p)) with n in D by lia.
  rewrite N.mod_small; [reflexivity|]; eapply N.lt_trans; [exact D|].
  apply N.le_lt_trans with (10 ^ 9)%N; [|reflexivity]; apply N.pow_le_mono_r; lia.
Qed.
Lemma strToUint_short : forall s p n, (slen s < p + n)%nat -> strToUint s p n = Ok None.
Proof.
  intros s p n H; rewrite strToUint_spec; replace (Nat.ltb (slen s) (p + n)) with true by (symmetry; apply Nat.ltb_lt; lia).
  rewrite Bool.orb_true_r; reflexivity.
Qed.

(** ** Tactics: a hypothesis [H : parser s = Ok (Some v)] is followed through the parser; a goal of that
    form is computed. *)
Ltac bool_facts :=
  repeat match goal with
  | H : negb ?b = true |- _ => apply Bool.negb_true_iff in H
  | H : negb ?b = false |- _ => apply Bool.negb_false_iff in H
  | H : (?a && ?b)%bool = true |- _ => apply andb_prop in H; let A := fresh in let B := fresh in destruct H as [A B]
  | H : (?a || ?b)%bool = false |- _ => apply Bool.orb_false_elim in H; let A := fresh in let B := fresh in destruct H as [A B]
  | H : Nat.eqb _ _ = true |- _ => apply Nat.eqb_eq in H
  | H : Ascii.eqb _ _ = true |- _ => apply Ascii.eqb_eq in H
  | H : seqb _ _ = true |- _ => apply seqb_eq in H
  | H : String _ _ = String _ _ |- _ => inversion H; subst; clear H
  | H : String _ _ = "" |- _ => discriminate H
  | H : "" = String _ _ |- _ => discriminate H
  end.
Ltac numbers :=
  repeat match goal with
  | H : context [strToUint ?s ?p ?n] |- _ =>
      first [rewrite (strToUint9 s p n) in H by (cbn; lia) | rewrite (strToUint_short s p n) in H by (cbn; lia)]
  | |- context [strToUint ?s ?p ?n] =>
      first [rewrite (strToUint9 s p n) by (cbn; lia) | rewrite (strToUint_short s p n) by (cbn; lia)]
  end; cbn [substring] in *.
Ltac follow H :=
  repeat (
  first [ discriminate H
  | progress cbn [bind sget String.get Nat.add Nat.sub Nat.ltb Nat.leb Nat.eqb slen String.length negb andb orb] in H
  | match type of H with
    | (if ?b then _ else _) = _ => destruct b eqn:?
    | bind (if ?b then _ else _) _ = _ => destruct b eqn:?
    | match (if ?b then _ else _) with Some _ => _ | None => _ end = _ => destruct b eqn:?
    | match ?o with Some _ => _ | None => _ end = _ => destruct o eqn:?
    | match ?o with Some _ => _ | None => Ok None end = _ => destruct o eqn:?
    end ]; bool_facts; explode; subst; numbers).

Ltac back :=
  intros; explode; cbn [append] in *;
  repeat (
  cbn [bind sget String.get slen String.length Nat.eqb Nat.ltb Nat.leb Nat.add Nat.sub negb andb orb append seqb sempty] in *;
  numbers;
  try match goal with
  | D : decimal ?s = Some ?v |- context [decimal ?s] => rewrite D
  | |- context [if ?b then _ else _] => destruct b eqn:?; bool_facts; subst; try discriminate; try congruence
  end);
  try reflexivity.
(** Values of small width *)
Lemma numeral_bound : forall n s v, numeral n s v -> (v < 10 ^ N.of_nat n)%N.
Proof. intros n s v [L D]; apply decimal_bound in D; unfold slen in D; rewrite L in D; exact D. Qed.
Lemma numeral_lt : forall n k s v, decimal s = Some v -> slen s = n -> (10 ^ N.of_nat n <= k)%N -> (v < k)%N.
Proof. intros n k s v D L B; apply decimal_bound in D; rewrite L in D; lia. Qed.
Ltac bounds :=
  repeat match goal with
  | D : decimal ?s = Some ?v |- _ =>
      lazymatch goal with
      | _ : (v < _)%N |- _ => fail
      | _ => let n := eval cbn in (slen s) in let k := eval vm_compute in (10 ^ N.of_nat n)%N in
             assert (v < k)%N by (apply (numeral_lt n k s v D); [reflexivity | vm_compute; discriminate])
      end
  end.
Lemma i32_small : forall n, (n < 1000000)%N -> i32_of_u32 n = Z.of_N n.
Proof. intros n H; unfold i32_of_u32; destruct (N.ltb_spec n 2147483648); lia. Qed.
Lemma i32_neg_small : forall n, (n < 1000000)%N -> i32_of_u32 (u32_neg n) = (- Z.of_N n)%Z.
Proof.
  intros n H; unfold u32_neg; rewrite (u32_small n) by (unfold two32; lia).
  destruct (N.eq_dec n 0) as [->|Z]; [reflexivity|].
  rewrite u32_small by (unfold two32; lia); unfold i32_of_u32, two32.
  destruct (N.ltb_spec (4294967296 - n) 2147483648); lia.
Qed.

(** Choosing the case *)
Ltac pick1 :=
  match goal with
  | |- ex _ => eexists; pick1
  | |- _ /\ _ => split; [pick1 | pick1]
  | |- numeral _ _ _ => split; [reflexivity | eassumption]
  | |- In _ _ => cbn [In]; pick1
  | |- _ => reflexivity
  | |- _ => eassumption
  | |- _ \/ _ => left; pick1
  | |- _ \/ _ => right; pick1
  end.
Ltac given H := injection H as <-.
(** The first digit of a number *)
Lemma first_digit : forall c s v, decimal (String c s) = Some v ->
  (Ascii.eqb c "0" = true <-> (v < 10 ^ N.of_nat (slen s))%N).
Proof.
  intros c s v D; cbn [decimal] in D; destruct (digit_of c) as [d|] eqn:E; [|discriminate D].
  destruct (decimal s) as [w|] eqn:F; [|discriminate D]; injection D as <-.
  apply decimal_bound in F; unfold slen in *; set (k := (10 ^ N.of_nat (String.length s))%N) in *; split.
  - intros H; apply Ascii.eqb_eq in H; subst c; injection E as <-; lia.
  - intros H; assert (d = 0%N) by nia; subst d.
    clear - E; destruct c as [[] [] [] [] [] [] [] []]; try discriminate E; reflexivity.
Qed.
