(** What the value parsers recognise and return: directions, pressure, precipitation, runway friction,
    wave height. *)
From Verif Require Import Prim Lib Regex Float Values SpecRegex Pf_Regex Pf_Caps SpecForm SpecDecimal Pf_Decimal Pf_Form SpecNumeral Pf_Numeral Pf_Values2 SpecMiles Pf_Values3 Pf_Values4.
Local Open Scope string_scope.

Lemma digit_small : forall c d, digit_of c = Some d -> (d < 10)%N.
Proof. intros c d H; destruct c as [[] [] [] [] [] [] [] []]; try discriminate H; injection H as <-; reflexivity. Qed.
Lemma last_digit3 : forall a b c v, decimal (String a (String b (String c ""))) = Some v ->
  (c = "0"%char <-> (v mod 10 = 0)%N).
Proof.
  intros a b c v D; cbn [decimal] in D.
  destruct (digit_of a) as [x|]; [|discriminate D]; destruct (digit_of b) as [y|]; [|discriminate D]; destruct (digit_of c) as [z|] eqn:C; [|discriminate D].
  cbn [String.length] in D; change (10 ^ N.of_nat 2)%N with 100%N in D; change (10 ^ N.of_nat 1)%N with 10%N in D; change (10 ^ N.of_nat 0)%N with 1%N in D.
  injection D as <-; pose proof (digit_small _ _ C); split.
  - intros ->; injection C as <-; lia.
  - intros H'; assert (z = 0%N) by lia; subst z; clear - C; destruct c as [[] [] [] [] [] [] [] []]; try discriminate C; reflexivity.
Qed.
Lemma degrees_parse : forall s d, Direction_fromDegreesString s = Ok (Some d)
  <-> (s = "///" /\ d = mkDir 0 DT_NOT_REPORTED) \/ (s = "VRB" /\ d = mkDir 0 DT_VARIABLE)
      \/ (exists v, numeral 3 s v /\ (v mod 10 = 0)%N /\ d = mkDir v DT_VALUE_DEGREES).
Proof.
  intros s d; split.
  - intros H; unfold Direction_fromDegreesString in H; follow H; try (given H; solve [auto]).
    given H; right; right; eexists; split; [split; [reflexivity|eassumption]|]; split; [|reflexivity]; eapply last_digit3; eauto.
  - unfold Direction_fromDegreesString; intros [[-> ->]|[[-> ->]|(v & [L D] & M & ->)]]; [reflexivity|reflexivity|].
    explode; apply (last_digit3 _ _ _ _ D) in M; subst; back.
Qed.

Lemma pressure_parse : forall s p, Pressure_fromString s = Ok (Some p)
  <-> (s = "A////" /\ p = mkPressure None INCHES_HG) \/ (s = "Q////" /\ p = mkPressure None HECTOPASCAL)
      \/ (exists d v, s = "A" ++ d /\ numeral 4 d v /\ p = mkPressure (Some (f32_mul (f32_of_N v) inHgDecimalPointShift)) INCHES_HG)
      \/ (exists d v, s = "Q" ++ d /\ numeral 4 d v /\ p = mkPressure (Some (f32_of_N v)) HECTOPASCAL).
Proof.
  intros s p; split.
  - intros H; unfold Pressure_fromString in H; follow H; try (given H; solve [auto]).
    + given H; right; right; left; eexists _, _; split; [|split; [split; [|eassumption]|reflexivity]]; reflexivity.
    + given H; right; right; right; eexists _, _; split; [|split; [split; [|eassumption]|reflexivity]]; reflexivity.
  - unfold Pressure_fromString; intros [[-> ->]|[[-> ->]|[(d & v & -> & [L D] & ->)|(d & v & -> & [L D] & ->)]]]; try reflexivity.
    + explode; cbn [append slen String.length Nat.eqb negb].
      rewrite strToUint9 by (cbn; lia); cbn [substring sget String.get bind].
      destruct (seqb _ "A////") eqn:E1; [bool_facts; discriminate D|].
      destruct (seqb _ "Q////") eqn:E2; [bool_facts; discriminate D|].
      rewrite D; reflexivity.
    + explode; cbn [append slen String.length Nat.eqb negb].
      rewrite strToUint9 by (cbn; lia); cbn [substring sget String.get bind].
      destruct (seqb _ "A////") eqn:E1; [bool_facts; discriminate D|].
      destruct (seqb _ "Q////") eqn:E2; [bool_facts; discriminate D|].
      rewrite D; reflexivity.
Qed.
Lemma forecast_pressure_parse : forall s p, Pressure_fromForecastString s = Ok (Some p)
  <-> exists d v, s = "QNH" ++ d ++ "INS" /\ numeral 4 d v /\ p = mkPressure (Some (f32_mul (f32_of_N v) inHgDecimalPointShift)) INCHES_HG.
Proof.
  intros s p; split.
  - intros H; unfold Pressure_fromForecastString in H.
    destruct (Nat.eqb (slen s) 10) eqn:L; [|discriminate H]; bool_facts; explode; cbn [negb] in H.
    unfold three_at in H; cbn [bind sget String.get Nat.add] in H; follow H; given H.
    match goal with D : decimal ?d = Some ?v |- _ => exists d, v; split; [|split; [split; [reflexivity|exact D]|reflexivity]] end.
    reflexivity.
  - unfold Pressure_fromForecastString, three_at; intros (d & v & -> & [L D] & ->); explode; cbn [append]; back.
Qed.
Lemma slp_parse : forall s p, Pressure_fromSlpString s = Ok (Some p)
  <-> exists d v, s = "SLP" ++ d /\ numeral 3 d v
      /\ p = mkPressure (Some (to32 (f64_add (f64_mul (f64_of_N v) (dlit 1 10)) (f64_of_Z (if (v <? 500)%N then 1000 else 900)%Z)))) HECTOPASCAL.
Proof.
  intros s p; split.
  - intros H; unfold Pressure_fromSlpString in H.
    destruct (Nat.eqb (slen s) 6) eqn:L; [|discriminate H]; bool_facts; explode; cbn [negb] in H.
    unfold three_at in H; cbn [bind sget String.get Nat.add] in H.
    destruct (Ascii.eqb c "S") eqn:E1; cbn [negb bind] in H; [|discriminate H].
    destruct (Ascii.eqb c0 "L") eqn:E2; cbn [negb bind] in H; [|discriminate H].
    destruct (Ascii.eqb c1 "P") eqn:E3; cbn [negb bind] in H; [|discriminate H].
    bool_facts; subst; rewrite strToUint9 in H by (cbn; lia); cbn [substring bind] in H.
    destruct (decimal _) as [v|] eqn:D in H; [|discriminate H]; given H; exists (String c2 (String c3 (String c4 ""))), v.
    split; [reflexivity|]; split; [split; [reflexivity|exact D]|reflexivity].
  - unfold Pressure_fromSlpString, three_at; intros (d & v & -> & [L D] & ->); explode; cbn [append slen String.length Nat.eqb negb bind sget String.get Nat.add Ascii.eqb Bool.eqb].
    rewrite strToUint9 by (cbn; lia); cbn [substring bind]; rewrite D; reflexivity.
Qed.
Lemma qfe_parse : forall s p, Pressure_fromQfeString s = Ok (Some p)
  <-> exists d v rest, s = "QFE" ++ d ++ rest /\ numeral 3 d v /\ p = mkPressure (Some (f32_of_N v)) MM_HG
      /\ (rest = "" \/ exists d2 v2, rest = "/" ++ d2 /\ numeral 4 d2 v2).
Proof.
  intros s p; split.
  - intros H; unfold Pressure_fromQfeString in H.
    destruct (Nat.eqb (slen s) 6) eqn:L6; [|destruct (Nat.eqb (slen s) 11) eqn:L11; [|discriminate H]]; bool_facts; explode; cbn [negb andb] in H;
    unfold three_at in H; cbn [bind sget String.get Nat.add] in H;
    (destruct (Ascii.eqb c "Q") eqn:E1; cbn [negb bind] in H; [|discriminate H]);
    (destruct (Ascii.eqb c0 "F") eqn:E2; cbn [negb bind] in H; [|discriminate H]);
    (destruct (Ascii.eqb c1 "E") eqn:E3; cbn [negb bind] in H; [|discriminate H]);
    bool_facts; subst; rewrite strToUint9 in H by (cbn; lia); cbn [substring bind] in H;
    (destruct (decimal (String c2 (String c3 (String c4 "")))) as [v|] eqn:D; [|discriminate H]); cbn [slen String.length Nat.eqb] in H.
    + given H; exists (String c2 (String c3 (String c4 ""))), v, "".
      split; [reflexivity|]; split; [split; [reflexivity|exact D]|]; auto.
    + rewrite strToUint9 in H by (cbn; lia); cbn [substring bind sget String.get] in H.
      destruct (decimal (String c6 (String c7 (String c8 (String c9 ""))))) as [w|] eqn:D2; [|discriminate H].
      destruct (Ascii.eqb c5 "/") eqn:E; cbn [negb] in H; [|discriminate H]; bool_facts; subst c5; given H.
      exists (String c2 (String c3 (String c4 ""))), v, ("/" ++ String c6 (String c7 (String c8 (String c9 "")))).
      split; [reflexivity|]; split; [split; [reflexivity|exact D]|]; split; [reflexivity|]; right; eexists _, w; split; [reflexivity|split; [reflexivity|exact D2]].
  - unfold Pressure_fromQfeString, three_at; intros (d & v & rest & -> & [L D] & -> & [->|(d2 & v2 & -> & [L2 D2])]); explode;
      cbn [append slen String.length Nat.eqb negb andb bind sget String.get Nat.add Ascii.eqb Bool.eqb].
    + rewrite strToUint9 by (cbn; lia); cbn [substring bind]; rewrite D; reflexivity.
    + rewrite strToUint9 by (cbn; lia); cbn [substring bind]; rewrite D.
      rewrite strToUint9 by (cbn; lia); cbn [substring bind]; rewrite D2; reflexivity.
Qed.
Lemma tendency_parse : forall s p, Pressure_fromTendencyString s = Ok (Some p)
  <-> (s = "///" /\ p = mkPressure None HECTOPASCAL)
      \/ (exists v, numeral 3 s v /\ p = mkPressure (Some (f32_mul (f32_of_N v) tendencyDecimalPointShift)) HECTOPASCAL).
Proof.
  intros s p; split.
  - intros H; unfold Pressure_fromTendencyString in H; follow H; try (given H; solve [auto]).
    given H; right; eexists; split; [split; [reflexivity|eassumption]|reflexivity].
  - unfold Pressure_fromTendencyString; intros [[-> ->]|(v & [L D] & ->)]; [reflexivity|back].
Qed.

Lemma rainfall_parse : forall s p, Precipitation_fromRainfallString s = Ok (Some p)
  <-> ((s = "///./" \/ s = "//./") /\ p = mkPrecip None MM)
      \/ (exists i f a b, s = i ++ "." ++ f /\ (numeral 2 i a \/ numeral 3 i a) /\ numeral 1 f b
          /\ p = mkPrecip (Some (to32 (f64_add (f64_of_N a) (f64_mul (dlit 1 10) (f64_of_N b))))) MM).
Proof.
  intros s p; split.
  - intros H; unfold Precipitation_fromRainfallString in H.
    destruct (seqb s "///./") eqn:E1; [bool_facts; given H; auto|].
    destruct (seqb s "//./") eqn:E2; [bool_facts; given H; auto|]; cbn [orb] in H; right.
    destruct (Nat.eqb (slen s) 4) eqn:L4; [|destruct (Nat.eqb (slen s) 5) eqn:L5; [|discriminate H]]; bool_facts; explode;
      cbn [negb andb bind sget String.get Nat.sub slen String.length] in H.
    + destruct (Ascii.eqb c1 ".") eqn:E; [|discriminate H]; bool_facts; subst; cbn [negb] in H.
      rewrite strToUint9 in H by (cbn; lia); cbn [substring bind] in H; destruct (decimal (String c2 "")) as [b|] eqn:D; [|discriminate H].
      rewrite strToUint9 in H by (cbn; lia); cbn [substring bind] in H; destruct (decimal (String c (String c0 ""))) as [a|] eqn:D2; [|discriminate H].
      given H; exists (String c (String c0 "")), (String c2 ""), a, b; split; [reflexivity|]; split; [left; split; [reflexivity|exact D2]|].
      split; [split; [reflexivity|exact D]|reflexivity].
    + destruct (Ascii.eqb c2 ".") eqn:E; [|discriminate H]; bool_facts; subst; cbn [negb] in H.
      rewrite strToUint9 in H by (cbn; lia); cbn [substring bind] in H; destruct (decimal (String c3 "")) as [b|] eqn:D; [|discriminate H].
      rewrite strToUint9 in H by (cbn; lia); cbn [substring bind] in H; destruct (decimal (String c (String c0 (String c1 "")))) as [a|] eqn:D2; [|discriminate H].
      given H; exists (String c (String c0 (String c1 ""))), (String c3 ""), a, b; split; [reflexivity|]; split; [right; split; [reflexivity|exact D2]|].
      split; [split; [reflexivity|exact D]|reflexivity].
  - unfold Precipitation_fromRainfallString; intros [[[-> | ->] ->]|(i & f & a & b & -> & Hi & [Lf Df] & ->)]; [reflexivity|reflexivity|].
    destruct Hi as [[Li Di]|[Li Di]]; explode; cbn [append].
    + destruct (seqb _ "///./") eqn:E1; [bool_facts|].
      destruct (seqb _ "//./") eqn:E2; [bool_facts; discriminate Df|]; cbn [orb negb andb bind sget String.get Nat.sub slen String.length Nat.eqb].
      cbn [Ascii.eqb Bool.eqb negb]; rewrite !strToUint9 by (cbn; lia); cbn [substring bind]; rewrite Df, Di; reflexivity.
    + destruct (seqb _ "///./") eqn:E1; [bool_facts; discriminate Df|].
      destruct (seqb _ "//./") eqn:E2; [bool_facts; discriminate Df|]; cbn [orb negb andb bind sget String.get Nat.sub slen String.length Nat.eqb].
      cbn [Ascii.eqb Bool.eqb negb]; rewrite !strToUint9 by (cbn; lia); cbn [substring bind]; rewrite Df, Di; reflexivity.
Qed.
(** Depth of runway deposits: the codes 92 to 98 are for decimetres *)
Definition deposit_mm (v : N) : option N :=
  (if v =? 99 then None else if (92 <=? v) then Some (100 + 50 * (v - 92)) else Some v)%N.
Lemma deposits_parse : forall s p, Precipitation_fromRunwayDeposits s = Ok (Some p)
  <-> (s = "//" /\ p = mkPrecip None MM)
      \/ (exists v, numeral 2 s v /\ v <> 91%N /\ p = mkPrecip (option_map f32_of_N (deposit_mm v)) MM).
Proof.
  intros s p.
  assert (K : forall v, (v < 100)%N -> v <> 91%N ->
    (let mm (z : Z) := Ok (Some (mkPrecip (Some (f32_of_Z z)) MM)) in
     if v =? 92 then mm 100%Z else if v =? 93 then mm 150%Z else if v =? 94 then mm 200%Z else if v =? 95 then mm 250%Z else
     if v =? 96 then mm 300%Z else if v =? 97 then mm 350%Z else if v =? 98 then mm 400%Z else if v =? 99 then Ok (Some (mkPrecip None MM)) else
     mm (Z.of_N v))%N = Ok (Some (mkPrecip (option_map f32_of_N (deposit_mm v)) MM))).
  { intros v B Z; cbv zeta; unfold deposit_mm.
    destruct (N.leb_spec 92 v) as [L|L].
    - assert (In v [92; 93; 94; 95; 96; 97; 98; 99]%N) as I by (cbn [In]; lia).
      cbn [In] in I; repeat (destruct I as [<-|I]; [reflexivity|]); destruct I.
    - repeat match goal with |- context [N.eqb v ?k] => destruct (N.eqb_spec v k); [lia|] end; reflexivity. }
  split.
  - intros H; unfold Precipitation_fromRunwayDeposits in H.
    destruct (Nat.eqb (slen s) 2) eqn:L; [|discriminate H]; cbn [negb] in H.
    destruct (seqb s "//") eqn:E; [bool_facts; given H; auto|]; right; bool_facts; explode.
    rewrite strToUint9 in H by (cbn; lia); cbn [substring bind] in H.
    destruct (decimal (String c (String c0 ""))) as [v|] eqn:D; [|discriminate H].
    assert (B : (v < 100)%N) by (apply (numeral_lt 2 100 _ _ D); [reflexivity | vm_compute; discriminate]).
    destruct (N.eqb_spec v 91) as [X|X]; [discriminate H|].
    pose proof (K v B X) as Kv; cbv zeta in H, Kv; rewrite Kv in H; given H; exists v; split; [split; [reflexivity|exact D]|]; auto.
  - unfold Precipitation_fromRunwayDeposits; intros [[-> ->]|(v & [L D] & X & ->)]; [reflexivity|].
    explode; cbn [slen String.length Nat.eqb negb].
    destruct (seqb _ "//") eqn:E; [bool_facts; discriminate D|].
    rewrite strToUint9 by (cbn; lia); cbn [substring bind]; rewrite D.
    destruct (N.eqb_spec v 91) as [X'|_]; [contradiction|]; apply K; [|exact X].
    apply (numeral_lt 2 100 _ _ D); [reflexivity | vm_compute; discriminate].
Qed.
Lemma remark_precip_parse : forall s factor unit allow p, Precipitation_fromRemarkString s factor unit allow = Ok (Some p)
  <-> ((s = "///" \/ s = "////") /\ allow = true /\ p = mkPrecip None unit)
      \/ (exists v, (numeral 3 s v \/ numeral 4 s v) /\ p = mkPrecip (Some (f32_mul (f32_of_N v) factor)) unit).
Proof.
  intros s factor unit allow p; split.
  - intros H; unfold Precipitation_fromRemarkString in H.
    destruct (Nat.eqb (slen s) 3) eqn:L3; [|destruct (Nat.eqb (slen s) 4) eqn:L4; [|discriminate H]]; cbn [negb andb] in H;
    (destruct (seqb s "///" || seqb s "////") eqn:E;
      [destruct allow; [|discriminate H]; given H; left; apply orb_prop in E; destruct E as [E|E]; apply seqb_eq in E; auto|]);
    bool_facts; right; rewrite strToUint9 in H by lia; rewrite substring0_all in H; cbn [bind] in H;
    (destruct (decimal s) as [v|] eqn:D; [|discriminate H]); given H; exists v; split; auto; [left | right]; split; auto.
  - unfold Precipitation_fromRemarkString; intros [[[-> | ->] [-> ->]]|(v & [[L D]|[L D]] & ->)]; [reflexivity|reflexivity| |];
      change (slen s = 3%nat) in L || change (slen s = 4%nat) in L; rewrite L; cbn [Nat.eqb negb andb];
      (destruct (seqb s "///") eqn:E1; [apply seqb_eq in E1; subst s; discriminate D|]);
      (destruct (seqb s "////") eqn:E2; [apply seqb_eq in E2; subst s; discriminate D|]); cbn [orb];
      rewrite strToUint9 by lia; rewrite <- L, substring0_all, D; reflexivity.
Qed.
Lemma snincr_parse : forall s r, Precipitation_fromSnincrString s = Ok (Some r)
  <-> exists a b n m, s = a ++ "/" ++ b /\ short_numeral a n /\ short_numeral b m
      /\ r = (mkPrecip (Some (f32_of_N n)) INCHES, mkPrecip (Some (f32_of_N m)) INCHES).
Proof.
  intros s r; unfold Precipitation_fromSnincrString.
  assert (Z : s ++ "" = s) by (clear; induction s; cbn; congruence).
  split.
  - intros H; destruct (fractionStrToUint s 0 (slen s)) as [[[n m]|]|] eqn:E; try discriminate H; cbn [bind fst snd] in H; given H.
    pose proof (proj1 (fraction_parse "" s "" n m)) as P; cbn [append] in P; rewrite Z in P; apply P in E.
    destruct E as (a & b & -> & A & B); exists a, b, n, m; auto.
  - intros (a & b & n & m & E & A & B & ->).
    pose proof (proj2 (fraction_parse "" s "" n m)) as P; cbn [append] in P; rewrite Z in P.
    change (slen "") with 0%nat in P; rewrite P; [reflexivity|]; eauto.
Qed.

Lemma friction_parse : forall s f, SurfaceFriction_fromString s = Ok (Some f)
  <-> (s = "//" /\ f = mkSf Sf_NOT_REPORTED 0) \/ (s = "99" /\ f = mkSf Sf_UNRELIABLE 0)
      \/ In (s, f) [("91", mkSf Sf_BRAKING_ACTION_REPORTED 0); ("92", mkSf Sf_BRAKING_ACTION_REPORTED 26); ("93", mkSf Sf_BRAKING_ACTION_REPORTED 30);
                    ("94", mkSf Sf_BRAKING_ACTION_REPORTED 36); ("95", mkSf Sf_BRAKING_ACTION_REPORTED 40)]
      \/ (exists v, numeral 2 s v /\ (v <= 90)%N /\ f = mkSf Sf_SURFACE_FRICTION_REPORTED v).
Proof.
  assert (Two : forall s v, slen s = 2%nat -> decimal s = Some v -> (90 < v)%N ->
            In (s, v) [("91", 91); ("92", 92); ("93", 93); ("94", 94); ("95", 95); ("96", 96); ("97", 97); ("98", 98); ("99", 99)]%N).
  { intros s v L D B; explode; destruct (two_digits_split _ _ _ D) as (x & y & X & Y & -> & Bx & By).
    assert (x = 9%N) by lia; subst x; assert (c = "9"%char) by (clear - X; destruct c as [[] [] [] [] [] [] [] []]; try discriminate X; reflexivity); subst c.
    assert (y <> 0%N) by lia; clear - Y By H; destruct c0 as [[] [] [] [] [] [] [] []]; try discriminate Y; injection Y as <-; cbn; auto 12; try lia. }
  intros s f; split.
  - intros H; unfold SurfaceFriction_fromString in H.
    destruct (Nat.eqb (slen s) 2) eqn:L; [|discriminate H]; cbn [negb] in H.
    destruct (seqb s "//") eqn:E; [bool_facts; given H; auto|]; bool_facts.
    rewrite strToUint9 in H by lia; rewrite <- L, substring0_all in H; cbn [bind] in H.
    destruct (decimal s) as [v|] eqn:D; [|discriminate H].
    destruct (N.le_gt_cases v 90) as [B|B].
    + right; right; right; exists v; split; [split; [exact L|exact D]|]; split; [exact B|].
      repeat match type of H with context [N.eqb v ?k] => destruct (N.eqb_spec v k); [lia|] end; cbn [orb] in H; given H; reflexivity.
    + pose proof (Two _ _ L D B) as I; cbn [In] in I; clear Two D L E B.
      repeat (destruct I as [I|I]; [injection I as <- <-; vm_compute in H; try discriminate H; injection H as <-; cbn; auto 12|]); destruct I.
  - intros [[-> ->]|[[-> ->]|[I|(v & [L D] & B & ->)]]]; [reflexivity|reflexivity| |].
    + cbn [In] in I; repeat (destruct I as [I|I]; [injection I as <- <-; reflexivity|]); destruct I.
    + unfold SurfaceFriction_fromString; change (slen s = 2%nat) in L; rewrite L; cbn [Nat.eqb negb].
      destruct (seqb s "//") eqn:E; [apply seqb_eq in E; subst s; discriminate D|].
      rewrite strToUint9 by lia; rewrite <- L, substring0_all, D; cbn [bind].
      repeat match goal with |- context [N.eqb v ?k] => destruct (N.eqb_spec v k); [lia|] end; reflexivity.
Qed.

Definition sea_state_codes : list (string * N) :=
  [("S0", 0); ("S1", 1); ("S2", 5); ("S3", 12); ("S4", 25); ("S5", 40); ("S6", 60); ("S7", 90); ("S8", 140); ("S9", 141)]%N.
Lemma wave_parse : forall s w, WaveHeight_fromString s = Ok (Some w)
  <-> (s = "S/" /\ w = mkWh Wh_STATE_OF_SURFACE None) \/ (s = "H///" /\ w = mkWh Wh_WAVE_HEIGHT None)
      \/ (exists h, In (s, h) sea_state_codes /\ w = mkWh Wh_STATE_OF_SURFACE (Some h))
      \/ (exists d n v, s = "H" ++ d /\ In n [1; 2; 3]%nat /\ numeral n d v /\ w = mkWh Wh_WAVE_HEIGHT (Some v)).
Proof.
  intros s w; split.
  - intros H; unfold WaveHeight_fromString in H.
    destruct (Nat.ltb_spec (slen s) 2) as [L|L]; [discriminate H|]; destruct (Nat.ltb_spec 4 (slen s)) as [L4|L4]; [discriminate H|]; cbn [orb] in H.
    destruct (seqb s "H///") eqn:E1; [bool_facts; given H; auto|]; destruct (seqb s "S/") eqn:E2; [bool_facts; given H; auto|].
    destruct s as [|c t]; [cbn in L; lia|]; cbn [bind sget String.get] in H.
    destruct (Ascii.eqb c "S") eqn:Cs; [bool_facts; subst c|destruct (Ascii.eqb c "H") eqn:Ch; [bool_facts; subst c|discriminate H]].
    + right; right; left; destruct (Nat.eqb (slen (String "S" t)) 2) eqn:L2; [|discriminate H]; bool_facts; injection L2 as L2.
      change (slen t = 1%nat) in L2; explode; cbn [negb bind sget String.get] in H.
      destruct (WaveHeight_fromStateOfSurfaceChar c) as [h|] eqn:W; [|discriminate H]; given H; exists h; split; [|reflexivity].
      unfold WaveHeight_fromStateOfSurfaceChar in W; unfold sea_state_codes; cbn [In].
      repeat match type of W with (if ?b then _ else _) = _ => let E := fresh in destruct b eqn:E; [apply Ascii.eqb_eq in E; subst c; injection W as <-; auto 12|] end.
      discriminate W.
    + right; right; right; change (slen (String "H" t)) with (S (slen t)) in *; cbn [Nat.sub] in H; rewrite Nat.sub_0_r in H.
      rewrite strToUint9 in H by (change (slen (String "H" t)) with (S (slen t)); lia).
      assert (Sub : substring 1 (slen t) (String "H" t) = t) by (cbn [substring]; apply substring0_all).
      rewrite Sub in H; cbn [bind] in H; destruct (decimal t) as [v|] eqn:D; [|discriminate H]; given H.
      exists t, (slen t), v; split; [reflexivity|]; split; [cbn; lia|]; split; [split; [reflexivity|exact D]|reflexivity].
  - intros [[-> ->]|[[-> ->]|[(h & I & ->)|(d & n & v & -> & I & [L D] & ->)]]]; [reflexivity|reflexivity| |].
    + unfold sea_state_codes in I; cbn [In] in I; repeat (destruct I as [I|I]; [injection I as <- <-; reflexivity|]); destruct I.
    + unfold WaveHeight_fromString; change ("H" ++ d) with (String "H" d); change (slen d = n) in L; change (slen (String "H" d)) with (S (slen d)).
      assert (B : (1 <= slen d <= 3)%nat) by (cbn [In] in I; lia).
      replace (Nat.ltb (S (slen d)) 2) with false by (symmetry; apply Nat.ltb_ge; lia).
      replace (Nat.ltb 4 (S (slen d))) with false by (symmetry; apply Nat.ltb_ge; lia); cbn [orb].
      destruct (seqb (String "H" d) "H///") eqn:E1; [apply seqb_eq in E1; injection E1 as ->; discriminate D|].
      destruct (seqb (String "H" d) "S/") eqn:E2; [apply seqb_eq in E2; discriminate E2|].
      cbn [bind sget String.get Ascii.eqb Bool.eqb Nat.sub]; rewrite Nat.sub_0_r, strToUint9 by (change (slen (String "H" d)) with (S (slen d)); lia).
      assert (Sub : substring 1 (slen d) (String "H" d) = d) by (cbn [substring]; apply substring0_all).
      rewrite Sub, D; reflexivity.
Qed.
