(** The languages of the value parsers (C21). *)
From Verif Require Import Prim Lib Regex Float Values SpecRegex Pf_Regex Pf_Caps SpecForm SpecDecimal Pf_Decimal Pf_Form SpecNumeral Pf_Numeral Pf_Forms Pf_Values1 Pf_Values2 SpecMiles Pf_Values3 Pf_Values4 Pf_Values5.
Local Open Scope string_scope.

Lemma fits_here : forall f F s, fits f s = true -> fits_one (f :: F) s.
Proof. intros f F s H; exists f; cbn; auto. Qed.
Lemma fits_there : forall f F s, fits_one F s -> fits_one (f :: F) s.
Proof. intros f F s (g & I & H); exists g; cbn; auto. Qed.
Lemma one_of_In : forall a c, one_of a c = true -> In c (list_ascii_of_string a).
Proof.
  induction a as [|x a IH]; intros c H; [discriminate H|]; cbn in *; apply orb_prop in H; destruct H as [H|H]; [left|right; auto].
  apply Ascii.eqb_eq in H; auto.
Qed.

Lemma fits_cons_inv : forall p f s, fits (p :: f) s = true -> exists c t, s = String c t /\ p c = true /\ fits f t = true.
Proof. intros p f [|c t] H; [discriminate H|]; cbn in H; apply andb_prop in H; destruct H; eauto. Qed.
Lemma fits_nil_inv : forall s, fits [] s = true -> s = "".
Proof. intros [|c t] H; [reflexivity | discriminate H]. Qed.

(** From numerals to forms *)
Ltac fit_facts :=
  repeat match goal with
  | N : numeral _ _ _ |- _ => let F := fresh "F" in pose proof (numeral_fits _ _ _ N) as F; destruct N as [? _]
  | H : short_numeral _ _ |- _ => destruct H as [H|H]
  end; explode; cbn [repeat fits append] in *;
  repeat match goal with H : (_ && _)%bool = true |- _ => apply andb_prop in H; destruct H end.
Ltac fit_solve :=
  cbn [fits append text_form];
  repeat match goal with H : digit ?c = true |- context [digit ?c] => rewrite H end; vm_compute; reflexivity.
Ltac fit_goal :=
  match goal with
  | |- fits_one _ _ => first [solve [apply fits_here; fit_solve] | apply fits_there; fit_goal]
  end.
(** From forms to numerals *)
Ltac chars :=
  repeat match goal with
  | H : fits (_ :: _) ?s = true |- _ => is_var s; let c := fresh "a" in let t := fresh "t" in let E := fresh in let C := fresh in
      apply fits_cons_inv in H; destruct H as (c & t & E & C & H); subst s
  | H : fits [] ?s = true |- _ => apply fits_nil_inv in H; subst s
  | H : fits (text_form _) _ = true |- _ => apply fits_text in H; subst
  | H : (_ && _)%bool = true |- _ => let A := fresh in let B := fresh in apply andb_prop in H; destruct H as [A B]; try discriminate B
  | H : just _ _ = true |- _ => unfold just in H; apply Ascii.eqb_eq in H; subst
  | H : one_of _ _ = true |- _ => apply one_of_In in H; cbn [list_ascii_of_string In] in H
  | H : _ \/ _ |- _ => destruct H as [H|H]
  | H : False |- _ => destruct H
  end; subst.
Ltac each_form H := 
  let f := fresh in let I := fresh in let F := fresh in
  destruct H as (f & I & F); cbn [In] in I;
  repeat match type of I with _ \/ _ => destruct I as [<-|I] end; try contradiction; chars.
(** The numeral made of the given digits *)
Ltac num t n :=
  let v := fresh "v" in let N := fresh "N" in
  assert (exists v, numeral n t v) as (v & N) by (apply fits_numeral; cbn [repeat fits]; repeat match goal with H : digit ?c = true |- context [digit ?c] => rewrite H end; reflexivity).

Lemma temperature_format : forall s, accepted (Temperature_fromString s) <-> matches "(?:(M)?(\d\d))|//" s.
Proof.
  assert (M : forall s, matches "(?:(M)?(\d\d))|//" s <-> fits_one [[just "M"; digit; digit]; [digit; digit]; text_form "//"] s) by forms_tac.
  intros s; rewrite M; clear M; split.
  - intros (t & H); apply temperature_parse in H; destruct H as [[-> _]|[(v & N & _)|(d & v & -> & N & _)]]; fit_facts; fit_goal.
  - intros H; each_form H.
    + num (String a0 (String a1 "")) 2%nat; eexists; apply temperature_parse; right; right; eexists _, _; split; [reflexivity|eauto].
    + num (String a (String a0 "")) 2%nat; eexists; apply temperature_parse; right; left; eauto.
    + eexists; apply temperature_parse; left; auto.
Qed.
Lemma remark_temperature_format : forall s, accepted (Temperature_fromRemarkString s) <-> matches "([01])(\d\d\d)" s.
Proof.
  assert (M : forall s, matches "([01])(\d\d\d)" s <-> fits_one [[one_of "01"; digit; digit; digit]] s) by forms_tac.
  intros s; rewrite M; clear M; split.
  - intros (t & H); apply remark_temperature_parse in H; destruct H as [(d & v & -> & N & _)|(d & v & -> & N & _)]; fit_facts; fit_goal.
  - intros H; each_form H; num (String a0 (String a1 (String a2 ""))) 3%nat; eexists; apply remark_temperature_parse; [left|right]; eexists _, _; split; try reflexivity; eauto.
Qed.
Lemma runway_format : forall s, accepted (Runway_fromString s true) <-> matches "R(?:WY)?(\d\d)([RLC])?" s.
Proof.
  assert (M : forall s, matches "R(?:WY)?(\d\d)([RLC])?" s <-> fits_one
    [[just "R"; just "W"; just "Y"; digit; digit; one_of "RLC"]; [just "R"; just "W"; just "Y"; digit; digit];
     [just "R"; digit; digit; one_of "RLC"]; [just "R"; digit; digit]] s) by forms_tac.
  intros s; rewrite M; clear M; split.
  - intros (t & H); apply runway_parse in H; destruct H as (p & d & q & -> & P & N & I); destruct t as [n g]; cbn [rNumber rDesignator In] in *.
    repeat (destruct I as [I|I]; [injection I as <- <-; destruct P as [->|[-> _]]; fit_facts; fit_goal|]); destruct I.
  - assert (K : forall p d q v g, (p = "R" \/ p = "RWY") -> numeral 2 d v -> In (q, g) [("", Rw_NONE); ("L", Rw_LEFT); ("C", Rw_CENTER); ("R", Rw_RIGHT)] ->
                accepted (Runway_fromString (p ++ d ++ q) true)).
    { intros p d q v g P N I; exists (mkRunway v g); apply runway_parse; exists p, d, q; cbn [rNumber rDesignator]; intuition auto. }
    intros H; each_form H.
    + num (String a2 (String a3 "")) 2%nat; apply (K "RWY" (String a2 (String a3 "")) "R" v Rw_RIGHT); cbn; auto.
    + num (String a2 (String a3 "")) 2%nat; apply (K "RWY" (String a2 (String a3 "")) "L" v Rw_LEFT); cbn; auto.
    + num (String a2 (String a3 "")) 2%nat; apply (K "RWY" (String a2 (String a3 "")) "C" v Rw_CENTER); cbn; auto.
    + num (String a2 (String a3 "")) 2%nat; apply (K "RWY" (String a2 (String a3 "")) "" v Rw_NONE); cbn; auto.
    + num (String a0 (String a1 "")) 2%nat; apply (K "R" (String a0 (String a1 "")) "R" v Rw_RIGHT); cbn; auto.
    + num (String a0 (String a1 "")) 2%nat; apply (K "R" (String a0 (String a1 "")) "L" v Rw_LEFT); cbn; auto.
    + num (String a0 (String a1 "")) 2%nat; apply (K "R" (String a0 (String a1 "")) "C" v Rw_CENTER); cbn; auto.
    + num (String a0 (String a1 "")) 2%nat; apply (K "R" (String a0 (String a1 "")) "" v Rw_NONE); cbn; auto.
Qed.
Lemma short_runway_format : forall s, accepted (Runway_fromString s false) <-> matches "R(\d\d)([RLC])?" s.
Proof.
  assert (M : forall s, matches "R(\d\d)([RLC])?" s <-> fits_one [[just "R"; digit; digit; one_of "RLC"]; [just "R"; digit; digit]] s) by forms_tac.
  intros s; rewrite M; clear M; split.
  - intros (t & H); apply runway_parse in H; destruct H as (p & d & q & -> & P & N & I); destruct t as [n g]; cbn [rNumber rDesignator In] in *.
    repeat (destruct I as [I|I]; [injection I as <- <-; destruct P as [->|[_ P]]; [fit_facts; fit_goal|discriminate P]|]); destruct I.
  - assert (K : forall d q v g, numeral 2 d v -> In (q, g) [("", Rw_NONE); ("L", Rw_LEFT); ("C", Rw_CENTER); ("R", Rw_RIGHT)] ->
                accepted (Runway_fromString ("R" ++ d ++ q) false)).
    { intros d q v g N I; exists (mkRunway v g); apply runway_parse; exists "R", d, q; cbn [rNumber rDesignator]; intuition auto. }
    intros H; each_form H.
    + num (String a0 (String a1 "")) 2%nat; apply (K (String a0 (String a1 "")) "R" v Rw_RIGHT); cbn; auto.
    + num (String a0 (String a1 "")) 2%nat; apply (K (String a0 (String a1 "")) "L" v Rw_LEFT); cbn; auto.
    + num (String a0 (String a1 "")) 2%nat; apply (K (String a0 (String a1 "")) "C" v Rw_CENTER); cbn; auto.
    + num (String a0 (String a1 "")) 2%nat; apply (K (String a0 (String a1 "")) "" v Rw_NONE); cbn; auto.
Qed.
Lemma time_format : forall s, accepted (MetafTime_fromStringDDHHMM s) <-> matches "(\d\d)?(\d\d)(\d\d)" s.
Proof.
  assert (M : forall s, matches "(\d\d)?(\d\d)(\d\d)" s <-> fits_one [[digit; digit; digit; digit; digit; digit]; [digit; digit; digit; digit]] s) by forms_tac.
  intros s; rewrite M; clear M; split.
  - intros (t & H); apply time_parse in H; destruct H as [(h & m & x & y & -> & N1 & N2 & _)|(d & h & m & z & x & y & -> & N0 & N1 & N2 & _)]; fit_facts; fit_goal.
  - intros H; each_form H.
    + num (String a (String a0 "")) 2%nat; num (String a1 (String a2 "")) 2%nat; num (String a3 (String a4 "")) 2%nat.
      eexists; apply time_parse; right; eexists _, _, _, _, _, _; split; [|split; [exact N|split; [exact N0|split; [exact N1|reflexivity]]]]; reflexivity.
    + num (String a (String a0 "")) 2%nat; num (String a1 (String a2 "")) 2%nat.
      eexists; apply time_parse; left; eexists _, _, _, _; split; [|split; [exact N|split; [exact N0|reflexivity]]]; reflexivity.
Qed.
Lemma day_hour_format : forall s, accepted (MetafTime_fromStringDDHH s) <-> matches "(\d\d)(\d\d)" s.
Proof.
  assert (M : forall s, matches "(\d\d)(\d\d)" s <-> fits_one [[digit; digit; digit; digit]] s) by forms_tac.
  intros s; rewrite M; clear M; split.
  - intros (t & H); apply day_hour_parse in H; destruct H as (d & h & x & y & -> & N1 & N2 & _); fit_facts; fit_goal.
  - intros H; each_form H; num (String a (String a0 "")) 2%nat; num (String a1 (String a2 "")) 2%nat.
    eexists; apply day_hour_parse; eexists _, _, _, _; split; [|split; [exact N|split; [exact N0|reflexivity]]]; reflexivity.
Qed.
Lemma speed_format : forall s u, accepted (Speed_fromString s u) <-> matches "([1-9]?\d\d)|//" s \/ s = "".
Proof.
  assert (M : forall s, matches "([1-9]?\d\d)|//" s <-> fits_one [[one_of "123456789"; digit; digit]; [digit; digit]; text_form "//"] s) by forms_tac.
  intros s u; rewrite M; clear M; split.
  - intros (t & H); apply speed_parse in H; destruct H as [[[-> | ->] _]|[(v & N & _)|(v & [L D] & B & _)]]; [auto| | |]; left; try (fit_facts; fit_goal).
    explode; assert (Z : Ascii.eqb c "0" = false).
    { destruct (Ascii.eqb c "0") eqn:E; [|reflexivity]; apply (first_digit _ _ _ D) in E; cbn in E; lia. }
    pose proof (numeral_fits 3 (String c (String c0 (String c1 ""))) v (conj eq_refl D)) as F; cbn [repeat fits] in F; bool_facts.
    apply fits_here; cbn [fits]; repeat match goal with H : digit ?x = true |- context [digit ?x] => rewrite H end; rewrite andb_true_r.
    match goal with H : digit c = true |- _ => clear - H Z; destruct c as [[] [] [] [] [] [] [] []]; try discriminate H; try discriminate Z; reflexivity end.
  - assert (Big : forall c c0 c1 v, decimal (String c (String c0 (String c1 ""))) = Some v -> c <> "0"%char -> (100 <= v)%N).
    { intros c c0 c1 v D Z; destruct (N.le_gt_cases 100 v) as [G|G]; [exact G|]; exfalso; apply Z, Ascii.eqb_eq; eapply first_digit; [exact D|]; exact G. }
    intros [H| ->]; [|eexists; apply speed_parse; left; auto].
    destruct H as (f & I & F); cbn [In] in I; repeat (destruct I as [<-|I]); [| | |destruct I].
    + destruct s as [|c [|c0 [|c1 [|? ?]]]]; cbn [fits] in F; try discriminate F; bool_facts; try discriminate.
      assert (Dc : digit c = true) by (clear - H; destruct c as [[] [] [] [] [] [] [] []]; try discriminate H; reflexivity).
      num (String c (String c0 (String c1 ""))) 3%nat; eexists; apply speed_parse; right; right; exists v; split; [exact N|]; split; [|reflexivity].
      eapply Big; [apply N|]; intros ->; discriminate H.
    + chars; num (String a (String a0 "")) 2%nat; eexists; apply speed_parse; right; left; eauto.
    + chars; eexists; apply speed_parse; left; auto.
Qed.
Lemma meter_format : forall s, accepted (Distance_fromMeterString s) <-> matches "(\d\d\d\d)|////" s.
Proof.
  assert (M : forall s, matches "(\d\d\d\d)|////" s <-> fits_one [[digit; digit; digit; digit]; text_form "////"] s) by forms_tac.
  intros s; rewrite M; clear M; split.
  - intros (t & H); apply meter_parse in H; destruct H as [[-> _]|[[-> _]|(v & N & _)]]; fit_facts; fit_goal.
  - intros H; each_form H.
    + num (String a (String a0 (String a1 (String a2 "")))) 4%nat; destruct (N.eq_dec v 9999) as [->|Z]; [|eexists; apply meter_parse; right; right; eauto].
      destruct N as [_ D]; destruct (string_dec (String a (String a0 (String a1 (String a2 "")))) "9999") as [E|E]; [eexists; apply meter_parse; right; left; eauto|].
      exfalso; apply E; clear - D; cbn [decimal] in D.
      destruct (digit_of a) as [x|] eqn:X; [|discriminate D]; destruct (digit_of a0) as [y|] eqn:Y; [|discriminate D].
      destruct (digit_of a1) as [z|] eqn:Z; [|discriminate D]; destruct (digit_of a2) as [w|] eqn:W; [|discriminate D].
      pose proof (digit_small _ _ X); pose proof (digit_small _ _ Y); pose proof (digit_small _ _ Z); pose proof (digit_small _ _ W).
      cbn [String.length] in D; change (10 ^ N.of_nat 3)%N with 1000%N in D; change (10 ^ N.of_nat 2)%N with 100%N in D; change (10 ^ N.of_nat 1)%N with 10%N in D; change (10 ^ N.of_nat 0)%N with 1%N in D.
      injection D as D; assert (x = 9%N /\ y = 9%N /\ z = 9%N /\ w = 9%N) as (-> & -> & -> & ->) by lia.
      assert (K : forall c, digit_of c = Some 9%N -> c = "9"%char) by (intros [[] [] [] [] [] [] [] []] Q; try discriminate Q; reflexivity).
      apply K in X; apply K in Y; apply K in Z; apply K in W; subst; reflexivity.
    + eexists; apply meter_parse; auto.
Qed.
Lemma height_format : forall s, accepted (Distance_fromHeightString s) <-> matches "(\d\d\d)|///" s.
Proof.
  assert (M : forall s, matches "(\d\d\d)|///" s <-> fits_one [[digit; digit; digit]; text_form "///"] s) by forms_tac.
  intros s; rewrite M; clear M; split.
  - intros (t & H); apply height_parse in H; destruct H as [[-> _]|(v & N & _)]; fit_facts; fit_goal.
  - intros H; each_form H.
    + num (String a (String a0 (String a1 ""))) 3%nat; eexists; apply height_parse; right; eauto.
    + eexists; apply height_parse; auto.
Qed.
Lemma rvr_format : forall s feet, accepted (Distance_fromRvrString s feet) <-> matches "([PM])?(\d\d\d\d)|////" s.
Proof.
  assert (M : forall s, matches "([PM])?(\d\d\d\d)|////" s <-> fits_one [[one_of "PM"; digit; digit; digit; digit]; [digit; digit; digit; digit]; text_form "////"] s) by forms_tac.
  intros s feet; rewrite M; clear M; split.
  - intros (t & H); apply rvr_parse in H; destruct H as [[-> _]|(p & m & n & v & -> & I & N & _)]; [fit_goal|].
    cbn [In] in I; repeat (destruct I as [I|I]; [injection I as <- <-; fit_facts; fit_goal|]); destruct I.
  - intros H; each_form H.
    + num (String a0 (String a1 (String a2 (String a3 "")))) 4%nat; eexists; apply rvr_parse; right; exists "P", DM_MORE_THAN; eexists _, _; split; [|split; [cbn; auto|split; [exact N|reflexivity]]]; reflexivity.
    + num (String a0 (String a1 (String a2 (String a3 "")))) 4%nat; eexists; apply rvr_parse; right; exists "M", DM_LESS_THAN; eexists _, _; split; [|split; [cbn; auto|split; [exact N|reflexivity]]]; reflexivity.
    + num (String a (String a0 (String a1 (String a2 "")))) 4%nat; eexists; apply rvr_parse; right; exists "", DM_NONE; eexists _, _; split; [|split; [cbn; auto|split; [exact N|reflexivity]]]; reflexivity.
    + eexists; apply rvr_parse; auto.
Qed.
Lemma layer_format : forall s, accepted (Distance_fromLayerString s) <-> matches "(\d\d\d)(\d)" s.
Proof.
  assert (M : forall s, matches "(\d\d\d)(\d)" s <-> fits_one [[digit; digit; digit; digit]] s) by forms_tac.
  intros s; rewrite M; clear M; split.
  - intros (t & H); apply layer_parse in H; destruct H as (h & d & x & y & -> & N1 & N2 & _); fit_facts; fit_goal.
  - intros H; each_form H; num (String a (String a0 (String a1 ""))) 3%nat; num (String a2 "") 1%nat.
    eexists; apply layer_parse; eexists _, _, _, _; split; [|split; [exact N|split; [exact N0|reflexivity]]]; reflexivity.
Qed.
Lemma km_format : forall s, accepted (Distance_fromKmString s) <-> matches "(\d\d?)KM" s.
Proof.
  assert (M : forall s, matches "(\d\d?)KM" s <-> fits_one [[digit; digit; just "K"; just "M"]; [digit; just "K"; just "M"]] s) by forms_tac.
  intros s; rewrite M; clear M; split.
  - intros (t & H); apply km_parse in H; destruct H as (n & v & -> & [N|N] & _); fit_facts; fit_goal.
  - intros H; each_form H.
    + num (String a (String a0 "")) 2%nat; eexists; apply km_parse; eexists _, _; split; [|split; [right; exact N|reflexivity]]; reflexivity.
    + num (String a "") 1%nat; eexists; apply km_parse; eexists _, _; split; [|split; [left; exact N|reflexivity]]; reflexivity.
Qed.
Lemma mile_format : forall s, accepted (Distance_fromMileString s false) -> matches "([PM])?(\d?\d)(?:/(\d?\d))?SM|////SM" s.
Proof.
  assert (M : forall s, matches "([PM])?(\d?\d)(?:/(\d?\d))?SM|////SM" s <-> fits_one
    [[one_of "PM"; digit; digit; just "/"; digit; digit; just "S"; just "M"]; [one_of "PM"; digit; digit; just "/"; digit; just "S"; just "M"];
     [one_of "PM"; digit; digit; just "S"; just "M"];
     [one_of "PM"; digit; just "/"; digit; digit; just "S"; just "M"]; [one_of "PM"; digit; just "/"; digit; just "S"; just "M"];
     [one_of "PM"; digit; just "S"; just "M"];
     [digit; digit; just "/"; digit; digit; just "S"; just "M"]; [digit; digit; just "/"; digit; just "S"; just "M"];
     [digit; digit; just "S"; just "M"];
     [digit; just "/"; digit; digit; just "S"; just "M"]; [digit; just "/"; digit; just "S"; just "M"];
     [digit; just "S"; just "M"]; text_form "////SM"] s) by forms_tac.
  intros s; rewrite M; clear M; intros (t & H); apply mile_parse in H.
  destruct H as [(_ & -> & _)|(p & m & body & w & n & q & k & -> & P & T & _)]; [fit_goal|].
  inversion T as [s' v N1|s1 s2 n' q' N1 N2 Pn Pq X|s0 s1 s2 w' n' q' N0 N1 N2 Pn Pq X]; subst; try clear X;
    destruct P as [[-> _]|[[-> _]|[-> _]]]; fit_facts; fit_goal.
Qed.
Lemma remark_mile_format : forall s, accepted (Distance_fromMileString s true) -> matches "([PM])?(\d?\d)(?:/(\d?\d))?" s.
Proof.
  assert (M : forall s, matches "([PM])?(\d?\d)(?:/(\d?\d))?" s <-> fits_one
    [[one_of "PM"; digit; digit; just "/"; digit; digit]; [one_of "PM"; digit; digit; just "/"; digit];
     [one_of "PM"; digit; digit];
     [one_of "PM"; digit; just "/"; digit; digit]; [one_of "PM"; digit; just "/"; digit];
     [one_of "PM"; digit];
     [digit; digit; just "/"; digit; digit]; [digit; digit; just "/"; digit];
     [digit; digit];
     [digit; just "/"; digit; digit]; [digit; just "/"; digit];
     [digit]] s) by forms_tac.
  intros s; rewrite M; clear M; intros (t & H); apply mile_parse in H.
  destruct H as [(Z & _)|(p & m & body & w & n & q & k & -> & P & T & _)]; [discriminate Z|].
  inversion T as [s' v N1|s1 s2 n' q' N1 N2 Pn Pq X|s0 s1 s2 w' n' q' N0 N1 N2 Pn Pq X]; subst; try clear X;
    destruct P as [[-> _]|[[-> _]|[-> _]]]; fit_facts; fit_goal.
Qed.
Lemma degrees_format : forall s, accepted (Direction_fromDegreesString s) <-> matches "\d\d0|///|VRB" s.
Proof.
  assert (M : forall s, matches "\d\d0|///|VRB" s <-> fits_one [[digit; digit; just "0"]; text_form "///"; text_form "VRB"] s) by forms_tac.
  intros s; rewrite M; clear M; split.
  - intros (t & H); apply degrees_parse in H; destruct H as [[-> _]|[[-> _]|(v & [L D] & Z & _)]]; [fit_goal|fit_goal|].
    explode; apply (last_digit3 _ _ _ _ D) in Z; subst; pose proof (numeral_fits 3 (String c (String c0 "0")) v (conj eq_refl D)); fit_facts; fit_goal.
  - intros H; each_form H.
    + assert (digit "0" = true) by reflexivity; num (String a (String a0 "0")) 3%nat; eexists; apply degrees_parse; right; right; exists v; split; [exact N|]; split; [|reflexivity].
      eapply (last_digit3 _ _ _ _ (proj2 N)); reflexivity.
    + eexists; apply degrees_parse; auto.
    + eexists; apply degrees_parse; auto.
Qed.
Lemma pressure_format : forall s, accepted (Pressure_fromString s) <-> matches "([QA])(?:(\d\d\d\d)|////)" s.
Proof.
  assert (M : forall s, matches "([QA])(?:(\d\d\d\d)|////)" s <-> fits_one [[one_of "QA"; digit; digit; digit; digit]; one_of "QA" :: text_form "////"] s) by forms_tac.
  intros s; rewrite M; clear M; split.
  - intros (t & H); apply pressure_parse in H; destruct H as [[-> _]|[[-> _]|[(d & v & -> & N & _)|(d & v & -> & N & _)]]]; fit_facts; fit_goal.
  - intros H; each_form H.
    + num (String a0 (String a1 (String a2 (String a3 "")))) 4%nat; eexists; apply pressure_parse; right; right; right; eexists _, _; split; [|split; [exact N|reflexivity]]; reflexivity.
    + num (String a0 (String a1 (String a2 (String a3 "")))) 4%nat; eexists; apply pressure_parse; right; right; left; eexists _, _; split; [|split; [exact N|reflexivity]]; reflexivity.
    + eexists; apply pressure_parse; auto.
    + eexists; apply pressure_parse; auto.
Qed.
Lemma forecast_pressure_format : forall s, accepted (Pressure_fromForecastString s) <-> matches "QNH(\d\d\d\d)INS" s.
Proof.
  assert (M : forall s, matches "QNH(\d\d\d\d)INS" s <-> fits_one [[just "Q"; just "N"; just "H"; digit; digit; digit; digit; just "I"; just "N"; just "S"]] s) by forms_tac.
  intros s; rewrite M; clear M; split.
  - intros (t & H); apply forecast_pressure_parse in H; destruct H as (d & v & -> & N & _); fit_facts; fit_goal.
  - intros H; each_form H; num (String a2 (String a3 (String a4 (String a5 "")))) 4%nat; eexists; apply forecast_pressure_parse; eexists _, _; split; [|split; [exact N|reflexivity]]; reflexivity.
Qed.
Lemma slp_format : forall s, accepted (Pressure_fromSlpString s) <-> matches "SLP(\d\d\d)" s.
Proof.
  assert (M : forall s, matches "SLP(\d\d\d)" s <-> fits_one [[just "S"; just "L"; just "P"; digit; digit; digit]] s) by forms_tac.
  intros s; rewrite M; clear M; split.
  - intros (t & H); apply slp_parse in H; destruct H as (d & v & -> & N & _); fit_facts; fit_goal.
  - intros H; each_form H; num (String a2 (String a3 (String a4 ""))) 3%nat; eexists; apply slp_parse; eexists _, _; split; [|split; [exact N|reflexivity]]; reflexivity.
Qed.
Lemma qfe_format : forall s, accepted (Pressure_fromQfeString s) <-> matches "QFE(\d\d\d)(/\d\d\d\d)?" s.
Proof.
  assert (M : forall s, matches "QFE(\d\d\d)(/\d\d\d\d)?" s <-> fits_one [[just "Q"; just "F"; just "E"; digit; digit; digit; just "/"; digit; digit; digit; digit]; [just "Q"; just "F"; just "E"; digit; digit; digit]] s) by forms_tac.
  intros s; rewrite M; clear M; split.
  - intros (t & H); apply qfe_parse in H; destruct H as (d & v & rest & -> & N & _ & [->|(d2 & v2 & -> & N2)]); fit_facts; fit_goal.
  - intros H; each_form H; num (String a2 (String a3 (String a4 ""))) 3%nat.
    + num (String a6 (String a7 (String a8 (String a9 "")))) 4%nat; eexists; apply qfe_parse; eexists _, _, _; split; [|split; [exact N|split; [reflexivity|right; eexists _, _; split; [|exact N0]]]]; reflexivity.
    + eexists; apply qfe_parse; eexists _, _, ""; split; [|split; [exact N|split; [reflexivity|auto]]]; reflexivity.
Qed.
Lemma tendency_format : forall s, accepted (Pressure_fromTendencyString s) <-> matches "(\d\d\d)|///" s.
Proof.
  assert (M : forall s, matches "(\d\d\d)|///" s <-> fits_one [[digit; digit; digit]; text_form "///"] s) by forms_tac.
  intros s; rewrite M; clear M; split.
  - intros (t & H); apply tendency_parse in H; destruct H as [[-> _]|(v & N & _)]; fit_facts; fit_goal.
  - intros H; each_form H.
    + num (String a (String a0 (String a1 ""))) 3%nat; eexists; apply tendency_parse; right; eauto.
    + eexists; apply tendency_parse; auto.
Qed.
Lemma rainfall_format : forall s, accepted (Precipitation_fromRainfallString s) <-> matches "\d?\d\d\.\d" s \/ s = "///./" \/ s = "//./".
Proof.
  assert (M : forall s, matches "\d?\d\d\.\d" s <-> fits_one [[digit; digit; digit; just "."; digit]; [digit; digit; just "."; digit]] s) by forms_tac.
  intros s; rewrite M; clear M; split.
  - intros (t & H); apply rainfall_parse in H; destruct H as [[H _]|(i & f & x & y & -> & Ni & Nf & _)]; [auto|]; left.
    destruct Ni as [Ni|Ni]; fit_facts; fit_goal.
  - intros [H|H]; [each_form H|eexists; apply rainfall_parse; left; auto].
    + num (String a (String a0 (String a1 ""))) 3%nat; num (String a3 "") 1%nat; eexists; apply rainfall_parse; right; eexists _, _, _, _; split; [|split; [right; exact N|split; [exact N0|reflexivity]]]; reflexivity.
    + num (String a (String a0 "")) 2%nat; num (String a2 "") 1%nat; eexists; apply rainfall_parse; right; eexists _, _, _, _; split; [|split; [left; exact N|split; [exact N0|reflexivity]]]; reflexivity.
Qed.
Lemma two_digits_value : forall a b v, decimal (String a (String b "")) = Some v -> (v = 91 -> a = "9"%char /\ b = "1"%char)%N.
Proof.
  intros a b v D E; destruct (two_digits_split _ _ _ D) as (x & y & X & Y & -> & Bx & By).
  assert (x = 9%N /\ y = 1%N) as [-> ->] by lia; split.
  - clear - X; destruct a as [[] [] [] [] [] [] [] []]; try discriminate X; reflexivity.
  - clear - Y; destruct b as [[] [] [] [] [] [] [] []]; try discriminate Y; reflexivity.
Qed.
Lemma deposits_format : forall s, accepted (Precipitation_fromRunwayDeposits s) <-> matches "\d\d" s /\ s <> "91" \/ s = "//".
Proof.
  assert (M : forall s, matches "\d\d" s <-> fits_one [[digit; digit]] s) by forms_tac.
  intros s; rewrite M; clear M; split.
  - intros (t & H); apply deposits_parse in H; destruct H as [[-> _]|(v & N & Z & _)]; [auto|]; left; split.
    + fit_facts; fit_goal.
    + intros ->; destruct N as [_ D]; injection D as <-; apply Z; reflexivity.
  - intros [[H Z]| ->]; [each_form H|eexists; apply deposits_parse; auto].
    num (String a (String a0 "")) 2%nat; eexists; apply deposits_parse; right; exists v; split; [exact N|]; split; [|reflexivity].
    intros E; destruct (two_digits_value _ _ _ (proj2 N) E) as [-> ->]; apply Z; reflexivity.
Qed.
Lemma remark_precip_format : forall s factor unit allow, accepted (Precipitation_fromRemarkString s factor unit allow)
  <-> matches "\d\d\d\d?" s \/ allow = true /\ (s = "///" \/ s = "////").
Proof.
  assert (M : forall s, matches "\d\d\d\d?" s <-> fits_one [[digit; digit; digit; digit]; [digit; digit; digit]] s) by forms_tac.
  intros s factor unit allow; rewrite M; clear M; split.
  - intros (t & H); apply remark_precip_parse in H; destruct H as [(E & A & _)|(v & [N|N] & _)]; [auto| |]; left; fit_facts; fit_goal.
  - intros [H|[A E]]; [each_form H|eexists; apply remark_precip_parse; left; auto].
    + num (String a (String a0 (String a1 (String a2 "")))) 4%nat; eexists; apply remark_precip_parse; right; eauto.
    + num (String a (String a0 (String a1 ""))) 3%nat; eexists; apply remark_precip_parse; right; eauto.
Qed.
Lemma snincr_format : forall s, accepted (Precipitation_fromSnincrString s) <-> matches "(\d?\d)/(\d?\d)" s.
Proof.
  assert (M : forall s, matches "(\d?\d)/(\d?\d)" s <-> fits_one [[digit; digit; just "/"; digit; digit]; [digit; digit; just "/"; digit]; [digit; just "/"; digit; digit]; [digit; just "/"; digit]] s) by forms_tac.
  intros s; rewrite M; clear M; split.
  - intros (t & H); apply snincr_parse in H; destruct H as (x & y & n & m & -> & N1 & N2 & _); fit_facts; fit_goal.
  - assert (K : forall x y n m, short_numeral x n -> short_numeral y m -> accepted (Precipitation_fromSnincrString (x ++ "/" ++ y))).
    { intros x y n m X Y; eexists; apply snincr_parse; exists x, y, n, m; eauto. }
    intros H; each_form H.
    + num (String a (String a0 "")) 2%nat; num (String a2 (String a3 "")) 2%nat; exact (K _ _ _ _ (or_intror N) (or_intror N0)).
    + num (String a (String a0 "")) 2%nat; num (String a2 "") 1%nat; exact (K _ _ _ _ (or_intror N) (or_introl N0)).
    + num (String a "") 1%nat; num (String a1 (String a2 "")) 2%nat; exact (K _ _ _ _ (or_introl N) (or_intror N0)).
    + num (String a "") 1%nat; num (String a1 "") 1%nat; exact (K _ _ _ _ (or_introl N) (or_introl N0)).
Qed.
Lemma friction_format : forall s, accepted (SurfaceFriction_fromString s) <-> matches "\d\d" s /\ s <> "96" /\ s <> "97" /\ s <> "98" \/ s = "//".
Proof.
  assert (M : forall s, matches "\d\d" s <-> fits_one [[digit; digit]] s) by forms_tac.
  intros s; rewrite M; clear M; split.
  - intros (t & H); apply friction_parse in H; destruct H as [[-> _]|[[-> _]|[I|(v & N & B & _)]]]; [auto| | |]; left.
    + split; [fit_goal|repeat split; discriminate].
    + cbn [In] in I; repeat (destruct I as [I|I]; [injection I as <- _; split; [fit_goal|repeat split; discriminate]|]); destruct I.
    + split; [|repeat split; intros ->; destruct N as [_ D]; injection D as <-; vm_compute in B; apply B; reflexivity].
      fit_facts; fit_goal.
  - intros [[H [Z1 [Z2 Z3]]]| ->]; [each_form H|eexists; apply friction_parse; auto].
    num (String a (String a0 "")) 2%nat; destruct (N.le_gt_cases v 90) as [B|B]; [eexists; apply friction_parse; right; right; right; eauto|].
    destruct (two_digits_split _ _ _ (proj2 N)) as (x & y & X & Y & -> & Bx & By).
    assert (x = 9%N) by lia; subst x; assert (a = "9"%char) by (clear - X; destruct a as [[] [] [] [] [] [] [] []]; try discriminate X; reflexivity); subst a.
    assert (y <> 0%N) by lia; clear - Y By H1 Z1 Z2 Z3; destruct a0 as [[] [] [] [] [] [] [] []]; try discriminate Y; injection Y as <-; try lia; try congruence;
      eexists; vm_compute; reflexivity.
Qed.
Lemma wave_format : forall s, accepted (WaveHeight_fromString s) <-> matches "S(\d)|H(\d?\d?\d)" s \/ s = "S/" \/ s = "H///".
Proof.
  assert (M : forall s, matches "S(\d)|H(\d?\d?\d)" s <-> fits_one [[just "S"; digit]; [just "H"; digit; digit; digit]; [just "H"; digit; digit]; [just "H"; digit; digit]; [just "H"; digit]] s) by forms_tac.
  intros s; rewrite M; clear M; split.
  - intros (t & H); apply wave_parse in H; destruct H as [[-> _]|[[-> _]|[(h & I & _)|(d & n & v & -> & I & N & _)]]]; [auto|auto| |]; left.
    + unfold sea_state_codes in I; cbn [In] in I; repeat (destruct I as [I|I]; [injection I as <- _; fit_goal|]); destruct I.
    + cbn [In] in I; repeat (destruct I as [<-|I]; [fit_facts; fit_goal|]); destruct I.
  - assert (K : forall d n v, In n [1; 2; 3]%nat -> numeral n d v -> accepted (WaveHeight_fromString ("H" ++ d))).
    { intros d n v I N; eexists; apply wave_parse; right; right; right; exists d, n, v; eauto. }
    intros [H|[-> | ->]]; [each_form H|eexists; apply wave_parse; auto|eexists; apply wave_parse; auto].
    + clear K; destruct a0 as [[] [] [] [] [] [] [] []]; try discriminate; eexists; apply wave_parse; right; right; left; eexists; split; unfold sea_state_codes; cbn; eauto 12.
    + num (String a0 (String a1 (String a2 ""))) 3%nat; apply (K _ 3%nat v); cbn; auto.
    + num (String a0 (String a1 "")) 2%nat; apply (K _ 2%nat v); cbn; auto.
    + num (String a0 (String a1 "")) 2%nat; apply (K _ 2%nat v); cbn; auto.
    + num (String a0 "") 1%nat; apply (K _ 1%nat v); cbn; auto.
Qed.
