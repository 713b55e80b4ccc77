(** What the value parsers recognise and return: runways, times, temperatures, speeds. *)
From Verif Require Import Prim Lib Regex Float Values SpecRegex Pf_Regex Pf_Caps SpecForm SpecDecimal Pf_Decimal Pf_Form SpecNumeral Pf_Numeral.
Local Open Scope string_scope.

Lemma temperature_parse : forall s t, Temperature_fromString s = Ok (Some t)
  <-> (s = "//" /\ t = mkTemp None false false)
      \/ (exists v, numeral 2 s v /\ t = mkTemp (Some (Z.of_N v)) false false)
      \/ (exists d v, s = "M" ++ d /\ numeral 2 d v /\ t = mkTemp (Some (- Z.of_N v)%Z) true false).
Proof.
  intros s t; split.
  - intros H; unfold Temperature_fromString in H; follow H.
    + injection H as <-; left; auto.
    + bounds; rewrite i32_neg_small in H by lia; injection H as <-; right; right; eexists (String c0 (String c1 "")), n; split; [reflexivity|].
      split; [split; [reflexivity|exact Heqo] | reflexivity].
    + bounds; rewrite i32_small in H by lia; injection H as <-; right; left; exists n.
      split; [split; [reflexivity|exact Heqo] | reflexivity].
  - unfold Temperature_fromString; intros [[-> ->]|[(v & [L D] & ->)|(d & v & -> & [L D] & ->)]].
    + reflexivity.
    + back; bounds; rewrite i32_small by lia; reflexivity.
    + back; bounds; rewrite i32_neg_small by lia; reflexivity.
Qed.
Lemma runway_parse : forall s rwy r, Runway_fromString s rwy = Ok (Some r)
  <-> exists prefix d suffix, s = prefix ++ d ++ suffix
      /\ (prefix = "R" \/ (prefix = "RWY" /\ rwy = true))
      /\ numeral 2 d (rNumber r)
      /\ In (suffix, rDesignator r) [("", Rw_NONE); ("L", Rw_LEFT); ("C", Rw_CENTER); ("R", Rw_RIGHT)].
Proof.
  intros s rwy r; split.
  - intros H; unfold Runway_fromString in H.
    destruct (Nat.ltb (slen s) 3) eqn:L3; [discriminate H|]; apply Nat.ltb_ge in L3.
    destruct s as [|c0 [|c1 [|c2 s]]]; try (cbn in L3; lia); clear L3.
    cbn [bind sget String.get] in H; destruct (Ascii.eqb c0 "R") eqn:E0; [|discriminate H]; cbn [negb] in H.
    apply Ascii.eqb_eq in E0; subst c0.
    destruct (rwy && Ascii.eqb c1 "W" && Ascii.eqb c2 "Y") eqn:E.
    + bool_facts; subst.
      destruct s as [|c3 [|c4 [|c5 [|c6 s]]]]; numbers; unfold Runway_designatorFromChar in H; follow H; try (cbn in *; discriminate);
        given H; cbn [rNumber rDesignator]; exists "RWY", (String c3 (String c4 "")); pick1.
    + destruct s as [|c3 [|c4 s]]; numbers; unfold Runway_designatorFromChar in H; follow H; try (cbn in *; discriminate);
        given H; cbn [rNumber rDesignator]; exists "R", (String c1 (String c2 "")); pick1.
  - intros (p & d & x & -> & P & [L D] & X); destruct r as [v g]; cbn [rNumber rDesignator] in *.
    explode; unfold Runway_fromString.
    assert (W : Ascii.eqb c "W" = false).
    { destruct (Ascii.eqb c "W") eqn:W; [|reflexivity]; apply Ascii.eqb_eq in W; subst c; discriminate D. }
    destruct P as [-> |[-> ->]]; cbn [In] in X;
      (destruct X as [X|[X|[X|[X|[]]]]]; injection X as <- <-); cbn [append];
      cbn [bind sget String.get slen String.length Nat.ltb Nat.leb Nat.eqb]; rewrite ?W, ?andb_false_r;
      cbn [negb andb orb Ascii.eqb Bool.eqb]; numbers; rewrite ?D; reflexivity.
Qed.

(** ** Times *)
Lemma time_parse : forall s t, MetafTime_fromStringDDHHMM s = Ok (Some t)
  <-> (exists h m hour minute, s = h ++ m /\ numeral 2 h hour /\ numeral 2 m minute /\ t = mkTime None hour minute)
      \/ (exists d h m day hour minute, s = d ++ h ++ m
            /\ numeral 2 d day /\ numeral 2 h hour /\ numeral 2 m minute /\ t = mkTime (Some day) hour minute).
Proof.
  intros s t; split.
  - intros H; unfold MetafTime_fromStringDDHHMM in H; follow H.
    + given H; left; exists (String c (String c0 "")), (String c1 (String c2 "")); pick1.
    + given H; right; exists (String c (String c0 "")), (String c1 (String c2 "")), (String c3 (String c4 "")); pick1.
  - unfold MetafTime_fromStringDDHHMM; intros [(h & m & hv & mv & -> & [L1 D1] & [L2 D2] & ->)|(d & h & m & dv & hv & mv & -> & [L1 D1] & [L2 D2] & [L3 D3] & ->)]; back.
Qed.
Lemma day_hour_parse : forall s t, MetafTime_fromStringDDHH s = Ok (Some t)
  <-> exists d h day hour, s = d ++ h /\ numeral 2 d day /\ numeral 2 h hour /\ t = mkTime (Some day) hour 0.
Proof.
  intros s t; split.
  - intros H; unfold MetafTime_fromStringDDHH in H; follow H.
    given H; exists (String c (String c0 "")), (String c1 (String c2 "")); pick1.
  - unfold MetafTime_fromStringDDHH; intros (h & m & hv & mv & -> & [L1 D1] & [L2 D2] & ->); back.
Qed.

(** ** Speeds *)
Lemma speed_parse : forall s u t, Speed_fromString s u = Ok (Some t)
  <-> ((s = "" \/ s = "//") /\ t = mkSpeed None KNOTS)
      \/ (exists v, numeral 2 s v /\ t = mkSpeed (Some v) u)
      \/ (exists v, numeral 3 s v /\ (100 <= v)%N /\ t = mkSpeed (Some v) u).
Proof.
  intros s u t; split.
  - intros H; unfold Speed_fromString in H.
    destruct (sempty s || seqb s "//") eqn:E.
    + given H; left; apply orb_prop in E; destruct E as [E|E]; [destruct s; [auto|discriminate E] | apply seqb_eq in E; auto].
    + destruct (Nat.eqb (slen s) 2) eqn:L2.
      * follow H; given H; right; left; pick1.
      * destruct (Nat.eqb (slen s) 3) eqn:L3; [|discriminate H]; bool_facts; explode.
        cbn [negb andb bind sget String.get] in H; destruct (Ascii.eqb c "0") eqn:Z; [discriminate H|]; numbers.
        follow H; given H; right; right; exists n; refine (conj (conj eq_refl _) (conj _ eq_refl)); [assumption|].
        destruct (N.le_gt_cases 100 n) as [A|A]; [exact A|].
        apply (first_digit c _ _ Heqo) in A; congruence.
  - unfold Speed_fromString; intros [[[-> | ->] ->]|[(v & [L D] & ->)|(v & [L D] & B & ->)]]; try reflexivity.
    + back.
    + explode; assert (Z : Ascii.eqb c "0" = false).
      { destruct (Ascii.eqb c "0") eqn:Z; [|reflexivity]; apply (first_digit _ _ _ D) in Z; change (10 ^ N.of_nat _)%N with 100%N in Z; lia. }
      cbn [sempty slen String.length seqb String.eqb andb orb negb Nat.eqb bind sget String.get]; rewrite Z, ?andb_false_r.
      cbn [orb]; numbers; rewrite D; destruct (Ascii.eqb c "/"), (Ascii.eqb c0 "/"); reflexivity.
Qed.

(** ** Temperatures in tenths *)
Definition tenths (v : N) (minus : bool) : res Temperature :=
  Temperature_ofFloat (to32 (f64_div (f64_of_Z (if minus then - Z.of_N v else Z.of_N v)) (f64_of_Z 10))).
Definition Temperature_same (a b : Temperature) : bool :=
  match tempValue a, tempValue b with
  | Some x, Some y => Z.eqb x y && Bool.eqb (freezing a) (freezing b) && Bool.eqb (precise a) (precise b)
  | _, _ => false
  end.
Definition tenths_ok (v : N) : bool :=
  match tenths v false, tenths v true with
  | Ok a, Ok b => Temperature_same a (mkTemp (Some (Z.of_N v)) false true)
      && Temperature_same b (mkTemp (Some (- Z.of_N v)%Z) (negb (N.eqb v 0)) true)
  | _, _ => false
  end.
Definition upto (n : nat) : list N := map N.of_nat (seq 0 n).
Lemma in_upto : forall n v, (v < N.of_nat n)%N -> In v (upto n).
Proof.
  intros n v H; unfold upto; apply in_map_iff; exists (N.to_nat v); split; [apply N2Nat.id|].
  apply in_seq; lia.
Qed.
Lemma all_tenths : forallb tenths_ok (upto 1000) = true.
Proof. vm_compute; reflexivity. Qed.
Lemma temperature_same : forall a x f p, Temperature_same a (mkTemp (Some x) f p) = true -> a = mkTemp (Some x) f p.
Proof.
  intros [[y|] g q] x f p H; cbn in H; [|discriminate H]; apply andb_prop in H; destruct H as [H H3]; apply andb_prop in H; destruct H as [H1 H2].
  apply Z.eqb_eq in H1; apply Bool.eqb_prop in H2; apply Bool.eqb_prop in H3; subst; reflexivity.
Qed.
Lemma tenths_value : forall v, (v < 1000)%N ->
  tenths v false = Ok (mkTemp (Some (Z.of_N v)) false true)
  /\ tenths v true = Ok (mkTemp (Some (- Z.of_N v)%Z) (negb (N.eqb v 0)) true).
Proof.
  intros v H; pose proof all_tenths as A; rewrite forallb_forall in A; specialize (A v (in_upto 1000 v H)); unfold tenths_ok in A.
  destruct (tenths v false) as [a|]; [|discriminate A]; destruct (tenths v true) as [b|]; [|discriminate A].
  apply andb_prop in A; destruct A as [A B]; apply temperature_same in A; apply temperature_same in B; subst; auto.
Qed.
Lemma remark_temperature_parse : forall s t, Temperature_fromRemarkString s = Ok (Some t)
  <-> (exists d v, s = "0" ++ d /\ numeral 3 d v /\ t = mkTemp (Some (Z.of_N v)) false true)
      \/ (exists d v, s = "1" ++ d /\ numeral 3 d v /\ t = mkTemp (Some (- Z.of_N v)%Z) (negb (N.eqb v 0)) true).
Proof.
  intros s t; split.
  - intros H; unfold Temperature_fromRemarkString in H.
    destruct (Nat.eqb (slen s) 4) eqn:L; [|discriminate H]; bool_facts; explode.
    cbn [negb bind sget String.get] in H.
    destruct (Ascii.eqb c "0") eqn:Z0; [|destruct (Ascii.eqb c "1") eqn:Z1; [|discriminate H]]; bool_facts; subst; cbn [negb andb] in H;
      numbers; cbn [bind] in H; (destruct (decimal (String c0 (String c1 (String c2 "")))) as [v|] eqn:D; [|discriminate H]);
      bounds; rewrite i32_small in H by lia; [left | right]; exists (String c0 (String c1 (String c2 ""))), v; (split; [reflexivity|]; split; [split; [reflexivity | exact D]|]).
    + change (bind (tenths v false) (fun r => Ok (Some r)) = Ok (Some t)) in H.
      rewrite (proj1 (tenths_value v ltac:(lia))) in H; injection H as <-; reflexivity.
    + change (bind (tenths v true) (fun r => Ok (Some r)) = Ok (Some t)) in H.
      rewrite (proj2 (tenths_value v ltac:(lia))) in H; injection H as <-; reflexivity.
  - unfold Temperature_fromRemarkString; intros [(d & v & -> & [L D] & ->)|(d & v & -> & [L D] & ->)]; explode; cbn [append]; bounds;
      cbn [slen String.length Nat.eqb negb bind sget String.get Ascii.eqb Bool.eqb andb]; numbers; rewrite D; cbn [bind]; rewrite i32_small by lia.
    + change (bind (tenths v false) (fun r => Ok (Some r)) = Ok (Some (mkTemp (Some (Z.of_N v)) false true))).
      rewrite (proj1 (tenths_value v ltac:(lia))); reflexivity.
    + change (bind (tenths v true) (fun r => Ok (Some r)) = Ok (Some (mkTemp (Some (- Z.of_N v)%Z) (negb (N.eqb v 0)) true))).
      rewrite (proj2 (tenths_value v ltac:(lia))); reflexivity.
Qed.
