(** What the value parsers recognise and return: fractions and statute miles. *)
From Verif Require Import Prim Lib Regex Float Values SpecRegex Pf_Regex Pf_Caps SpecForm SpecDecimal Pf_Decimal Pf_Form SpecNumeral Pf_Numeral Pf_Values2 SpecMiles.
Local Open Scope string_scope.

Lemma strToUint_mid : forall pre n post, (1 <= slen n <= 9)%nat ->
  strToUint (pre ++ n ++ post) (slen pre) (slen n) = Ok (decimal n).
Proof. intros pre n post L; rewrite strToUint9 by (rewrite ?slen_app; lia); rewrite substring_mid; reflexivity. Qed.

Fixpoint has (c : ascii) (s : string) : bool :=
  match s with "" => false | String d s' => Ascii.eqb c d || has c s' end.
Lemma sfind0_app : forall c n rest i, has c n = false -> sfind0 c (n ++ rest) i = sfind0 c rest (slen n + i).
Proof.
  induction n as [|d n IH]; intros rest i H; cbn in *; [reflexivity|].
  apply Bool.orb_false_elim in H; destruct H as [-> H]; rewrite IH by exact H; f_equal; slia.
Qed.
Lemma sfind0_inv : forall c s i k, sfind0 c s i = Some k ->
  exists n rest, s = n ++ String c rest /\ has c n = false /\ k = (i + slen n)%nat.
Proof.
  induction s as [|d s IH]; intros i k H; cbn in H; [discriminate H|].
  destruct (Ascii.eqb c d) eqn:E.
  - injection H as <-; apply Ascii.eqb_eq in E; subst d; exists "", s; repeat split; slia.
  - destruct (IH _ _ H) as (n & rest & -> & N & ->); exists (String d n), rest; cbn; rewrite E; repeat split; auto; slia.
Qed.
Lemma sfind_mid : forall c pre rest, sfind c (pre ++ rest) (slen pre) = sfind0 c rest (slen pre).
Proof. intros c pre rest; unfold sfind; rewrite sdrop_app; reflexivity. Qed.
Lemma digits_no : forall c n v, decimal n = Some v -> digit_of c = None -> has c n = false.
Proof.
  induction n as [|d n IH]; intros v D N; [reflexivity|]; cbn [decimal] in D; cbn [has].
  destruct (digit_of d) as [x|] eqn:X; [|discriminate D]; destruct (decimal n) as [y|] eqn:Y; [|discriminate D].
  rewrite (IH _ eq_refl N), Bool.orb_false_r; destruct (Ascii.eqb c d) eqn:E; [|reflexivity].
  apply Ascii.eqb_eq in E; congruence.
Qed.

Notation numeral12 := short_numeral.
Lemma numeral12_iff : forall s v, numeral12 s v <-> ((1 <= slen s <= 2)%nat /\ decimal s = Some v).
Proof.
  intros s v; unfold short_numeral, numeral, slen; split; [intros [[L D]|[L D]]; split; (lia || exact D)|].
  intros [L D]; assert (String.length s = 1%nat \/ String.length s = 2%nat) as [H|H] by lia; auto.
Qed.
Lemma fraction_parse : forall pre body post nv dv,
  fractionStrToUint (pre ++ body ++ post) (slen pre) (slen body) = Ok (Some (nv, dv))
  <-> exists n d, body = n ++ "/" ++ d /\ numeral12 n nv /\ numeral12 d dv.
Proof.
  intros pre body post nv dv; unfold fractionStrToUint.
  replace (Nat.ltb (slen (pre ++ body ++ post)) (slen body + slen pre)) with false
    by (symmetry; apply Nat.ltb_ge; rewrite !slen_app; lia).
  cbv zeta; rewrite sfind_mid; split.
  - intros H; destruct (sfind0 "/" (body ++ post) (slen pre)) as [k|] eqn:F; [|discriminate H].
    apply sfind0_inv in F; destruct F as (n & rest & E & N & ->).
    replace (Z.of_nat (slen pre + slen n) - Z.of_nat (slen pre))%Z with (Z.of_nat (slen n)) in H by lia.
    destruct ((Z.of_nat (slen n) <? 1)%Z || (2 <? Z.of_nat (slen n))%Z) eqn:B1; [discriminate H|].
    set (dl := (Z.of_nat (slen pre) + Z.of_nat (slen body) - (Z.of_nat (slen pre + slen n) + 1))%Z) in H.
    destruct ((dl <? 1)%Z || (2 <? dl)%Z) eqn:B2; [discriminate H|].
    assert (exists d post', rest = d ++ post' /\ slen d = Z.to_nat dl /\ body = n ++ "/" ++ d) as (d & post' & -> & Ld & ->).
    { clear H; assert (Lb : (slen n + 1 <= slen body)%nat) by lia.
      assert (X : body = substring 0 (slen body) (n ++ String "/" rest)) by (rewrite <- E; rewrite substring0_app; reflexivity).
      exists (substring 0 (Z.to_nat dl) rest), (sdrop (Z.to_nat dl) rest); split; [symmetry; apply substring0_sdrop_app|].
      assert (Lt : slen (n ++ String "/" rest) = slen (body ++ post)) by (rewrite E; reflexivity).
      rewrite !slen_app in Lt; cbn [slen String.length] in Lt; fold (slen rest) in Lt.
      split; [rewrite substring0_len; lia|].
      assert (Y : n ++ "/" ++ substring 0 (Z.to_nat dl) rest ++ sdrop (Z.to_nat dl) rest = body ++ post).
      { rewrite substring0_sdrop_app; symmetry; exact E. }
      assert (Z1 : forall a b c d : string, a ++ b = c ++ d -> slen a = slen c -> a = c).
      { clear; induction a as [|x a IH]; intros b c d H L; destruct c as [|y c]; try discriminate L; [reflexivity|].
        cbn in H; injection H as -> H; f_equal; eapply IH; [exact H | injection L as L; exact L]. }
      symmetry; eapply (Z1 _ (sdrop (Z.to_nat dl) rest) _ post).
      - rewrite sapp_assoc; cbn [append]; exact Y.
      - rewrite slen_app; cbn [append slen String.length]; fold (slen (substring 0 (Z.to_nat dl) rest)); rewrite substring0_len; lia. }
    rewrite Nat2Z.id in H.
    rewrite !sapp_assoc in H; cbn [append] in H.
    rewrite strToUint_mid in H by lia; cbn [bind] in H.
    replace (pre ++ n ++ String "/" (d ++ post)) with ((pre ++ n ++ "/") ++ d ++ post) in H by (rewrite !sapp_assoc; reflexivity).
    replace (Z.to_nat (Z.of_nat (slen pre + slen n) + 1)) with (slen (pre ++ n ++ "/")) in H by (rewrite !slen_app; slia).
    rewrite <- Ld in H; rewrite strToUint_mid in H by lia; cbn [bind] in H.
    destruct (decimal n) as [x|] eqn:D1; [|discriminate H]; destruct (decimal d) as [y|] eqn:D2; [|discriminate H].
    injection H as <- <-; exists n, d; split; [reflexivity|]; split; apply numeral12_iff; split; auto; lia.
  - intros (n & d & -> & Nn & Nd); apply numeral12_iff in Nn; apply numeral12_iff in Nd.
    destruct Nn as [Ln Dn]; destruct Nd as [Ld Dd].
    rewrite !sapp_assoc; cbn [append].
    rewrite sfind0_app by (eapply digits_no; [exact Dn | reflexivity]); cbn [sfind0 Ascii.eqb Bool.eqb].
    replace (Z.of_nat (slen n + slen pre) - Z.of_nat (slen pre))%Z with (Z.of_nat (slen n)) by lia.
    replace ((Z.of_nat (slen n) <? 1)%Z || (2 <? Z.of_nat (slen n))%Z) with false by lia.
    rewrite !slen_app; cbn [slen String.length]; fold (slen d).
    replace (Z.of_nat (slen pre) + Z.of_nat (slen n + S (slen d)) - (Z.of_nat (slen n + slen pre) + 1))%Z with (Z.of_nat (slen d)) by lia.
    replace ((Z.of_nat (slen d) <? 1)%Z || (2 <? Z.of_nat (slen d))%Z) with false by lia.
    rewrite !Nat2Z.id, strToUint_mid by lia; cbn [bind].
    replace (pre ++ n ++ String "/" (d ++ post)) with ((pre ++ n ++ "/") ++ d ++ post) by (rewrite !sapp_assoc; reflexivity).
    replace (Z.to_nat (Z.of_nat (slen n + slen pre) + 1)) with (slen (pre ++ n ++ "/")) by (rewrite !slen_app; slia).
    rewrite strToUint_mid by lia; cbn [bind]; rewrite Dn, Dd; reflexivity.
Qed.

(** ** Statute miles *)
Definition miles_core (s : string) (skip bodyLength : nat) (dmod : DistModifier) : res (option Distance) :=
  match sfind "/" s 0 with
  | None =>
    if (Z.of_nat bodyLength <? 1)%Z || (2 <? Z.of_nat bodyLength)%Z then Ok None else
    let? d := strToUint s skip (Z.to_nat (Z.of_nat bodyLength)) in
    Ok (Some (mkDist dmod (Some (u32 (d * statuteMileFactor))) STATUTE_MILES))
  | Some _ =>
    let? fraction := fractionStrToUint s skip (Z.to_nat (Z.of_nat bodyLength)) in
    let numerator := fst fraction in
    let denominator := snd fraction in
    if (numerator =? 0)%N || (denominator =? 0)%N then Ok None else
    let integer := if (denominator <=? numerator)%N then (numerator / 10)%N else 0%N in
    let numerator' := if (denominator <=? numerator)%N then (numerator mod 10)%N else numerator in
    if (numerator' =? 0)%N then Ok None else
    Ok (Some (mkDist dmod
      (Some (u32 (integer * statuteMileFactor + u32 (numerator' * statuteMileFactor) / denominator)))
      STATUTE_MILES))
  end.
Lemma has_app : forall c a b, has c (a ++ b) = has c a || has c b.
Proof. induction a as [|x a IH]; intros b; cbn; [reflexivity|]; rewrite IH, Bool.orb_assoc; reflexivity. Qed.
Lemma sfind_has : forall c s i, sfind0 c s i = None <-> has c s = false.
Proof.
  induction s as [|d s IH]; intros i; cbn; [split; reflexivity|].
  destruct (Ascii.eqb c d); cbn; [split; discriminate | apply IH].
Qed.
Lemma short_bound : forall s v, short_numeral s v -> (v < 100)%N.
Proof. intros s v [H|H]; apply numeral_bound in H; cbn in H; lia. Qed.
Lemma two_digits_split : forall a b v, decimal (String a (String b "")) = Some v ->
  exists x y, decimal (String a "") = Some x /\ decimal (String b "") = Some y /\ v = (10 * x + y)%N /\ (x < 10)%N /\ (y < 10)%N.
Proof.
  intros a b v D; cbn [decimal] in D; destruct (digit_of a) as [x|] eqn:X; [|discriminate D].
  destruct (digit_of b) as [y|] eqn:Y; [|discriminate D].
  change (10 ^ N.of_nat (String.length (String b "")))%N with 10%N in D; change (10 ^ N.of_nat (String.length ""))%N with 1%N in D; injection D as <-.
  assert (B : forall c d, digit_of c = Some d -> (d < 10)%N).
  { clear; intros c d H; destruct c as [[] [] [] [] [] [] [] []]; try discriminate H; injection H as <-; reflexivity. }
  apply B in X as X'; apply B in Y as Y'; exists x, y; cbn [decimal]; rewrite X, Y.
  change (10 ^ N.of_nat (String.length ""))%N with 1%N; repeat split; try (f_equal; lia); try lia.
Qed.
Lemma fraction_value : forall w n d, (w < 100)%N -> (n < 100)%N -> (0 < d)%N ->
  let k := u32 (w * 10000 + u32 (n * 10000) / d) in
  (k * d <= 10000 * (w * d + n) /\ 10000 * (w * d + n) < (k + 1) * d)%N.
Proof.
  intros w n d W N D; cbv zeta; rewrite (u32_id (n * 10000)) by lia.
  pose proof (N.div_mod (n * 10000) d ltac:(lia)) as E; pose proof (N.mod_lt (n * 10000) d ltac:(lia)) as L.
  assert (Q : (n * 10000 / d <= 1000000)%N) by (apply N.div_le_upper_bound; nia).
  rewrite u32_id by lia; nia.
Qed.
Lemma miles_core_parse : forall pre body post dmod d, has "/" pre = false -> has "/" post = false ->
  miles_core (pre ++ body ++ post) (slen pre) (slen body) dmod = Ok (Some d)
  <-> exists w n q k, MileText body w n q /\ d = mkDist dmod (Some k) STATUTE_MILES
      /\ (k * q <= 10000 * (w * q + n) < (k + 1) * q)%N.
Proof.
  intros pre body post dmod d Hp Hq; unfold miles_core; rewrite Nat2Z.id.
  assert (F : sfind "/" (pre ++ body ++ post) 0 = None <-> has "/" body = false).
  { unfold sfind; rewrite sdrop_0, sfind_has, !has_app, Hp, Hq, Bool.orb_false_r; reflexivity. }
  destruct (sfind "/" (pre ++ body ++ post) 0) as [k|].
  - split.
    + intros H; destruct (fractionStrToUint (pre ++ body ++ post) (slen pre) (slen body)) as [[[nv dv]|]|] eqn:E; try discriminate H.
      cbn [bind fst snd] in H; apply fraction_parse in E; destruct E as (s1 & s2 & -> & N1 & N2).
      pose proof (short_bound _ _ N1) as B1; pose proof (short_bound _ _ N2) as B2.
      destruct (N.eqb_spec nv 0) as [Z|Z]; [discriminate H|]; destruct (N.eqb_spec dv 0) as [Z'|Z']; [discriminate H|]; cbn [orb] in H.
      destruct (N.leb_spec dv nv) as [L|L].
      * destruct (N.eqb_spec (nv mod 10) 0) as [M|M]; [discriminate H|]; injection H as <-.
        pose proof (N.div_mod nv 10 ltac:(lia)) as E; pose proof (N.mod_lt nv 10 ltac:(lia)) as Lm.
        exists (nv / 10)%N, (nv mod 10)%N, dv; eexists; split; [|split; [reflexivity|]].
        -- destruct N1 as [[L1 D1]|[L1 D1]]; explode.
           ++ pose proof (numeral_lt 1 10 _ _ D1 eq_refl ltac:(vm_compute; discriminate)) as B.
              rewrite N.div_small, N.mod_small by lia.
              apply Miles_fraction; try lia; [left; split; [reflexivity | exact D1] | exact N2 | right; split; [reflexivity | exact D1]].
           ++ destruct (two_digits_split _ _ _ D1) as (x & y & X & Y & -> & Bx & By).
              assert (Ed : ((10 * x + y) / 10 = x)%N) by lia; assert (Em : ((10 * x + y) mod 10 = y)%N) by lia; rewrite Ed, Em in *.
              change (String c (String c0 "") ++ "/" ++ s2) with (String c "" ++ String c0 "" ++ "/" ++ s2).
              apply Miles_mixed; try lia; [split; [reflexivity | exact X] | split; [reflexivity | exact Y] | exact N2].
        -- apply (fraction_value (nv / 10) (nv mod 10) dv); lia.
      * destruct (N.eqb_spec nv 0) as [M|M]; [contradiction|]; injection H as <-.
        exists 0%N, nv, dv; eexists; split; [|split; [reflexivity|]].
        -- apply Miles_fraction; auto; lia.
        -- apply (fraction_value 0 nv dv); lia.
    + intros (w & n & q & k' & M & -> & Lo & Hi).
      assert (U : forall a b, (a * q <= 10000 * (w * q + n) -> 10000 * (w * q + n) < (a + 1) * q ->
                  b * q <= 10000 * (w * q + n) -> 10000 * (w * q + n) < (b + 1) * q -> a = b)%N) by (intros; nia).
      inversion M as [s v N1|s1 s2 n' q' N1 N2 Pn Pq X|s0 s1 s2 w' n' q' N0 N1 N2 Pn Pq X]; subst.
      * exfalso; assert (has "/" body = false) as Z by (apply numeral12_iff in N1; eapply digits_no; [apply N1 | reflexivity]).
        apply F in Z; discriminate Z.
      * assert (E : fractionStrToUint (pre ++ (s1 ++ "/" ++ s2) ++ post) (slen pre) (slen (s1 ++ "/" ++ s2)) = Ok (Some (n, q)))
          by (apply fraction_parse; eauto).
        rewrite E; cbn [bind fst snd]; pose proof (short_bound _ _ N1); pose proof (short_bound _ _ N2).
        destruct (N.eqb_spec n 0); [lia|]; destruct (N.eqb_spec q 0); [lia|]; cbn [orb].
        destruct (N.leb_spec q n) as [L|L].
        -- destruct X as [X|X]; [lia|]; apply numeral_bound in X; cbn in X.
           rewrite N.div_small, N.mod_small by lia; destruct (N.eqb_spec n 0); [lia|]; do 3 f_equal.
           destruct (fraction_value 0 n q ltac:(lia) ltac:(lia) ltac:(lia)) as [A B]; f_equal; apply U; assumption.
        -- destruct (N.eqb_spec n 0); [lia|]; do 3 f_equal.
           destruct (fraction_value 0 n q ltac:(lia) ltac:(lia) ltac:(lia)) as [A B]; f_equal; apply U; assumption.
      * assert (Ns : numeral12 (s0 ++ s1) (10 * w + n)).
        { destruct N0 as [L0 D0]; destruct N1 as [L1 D1]; explode; right; split; [reflexivity|]; cbn [append].
          cbn [decimal] in D0, D1 |- *.
          match type of D0 with context [digit_of ?c] => destruct (digit_of c) as [x|]; [|discriminate D0] end.
          match type of D1 with context [digit_of ?c] => destruct (digit_of c) as [y|]; [|discriminate D1] end.
          cbn [String.length] in D0, D1 |- *; change (10 ^ N.of_nat 1)%N with 10%N; change (10 ^ N.of_nat 0)%N with 1%N in *.
          injection D0 as D0; injection D1 as D1; f_equal; lia. }
        pose proof (short_bound _ _ N2); pose proof (numeral_bound _ _ _ N0) as B0; pose proof (numeral_bound _ _ _ N1) as B1; cbn in B0, B1.
        assert (E : fractionStrToUint (pre ++ (s0 ++ s1 ++ "/" ++ s2) ++ post) (slen pre) (slen (s0 ++ s1 ++ "/" ++ s2)) = Ok (Some (10 * w + n, q)%N)).
        { apply fraction_parse; exists (s0 ++ s1), s2; split; [rewrite sapp_assoc; reflexivity | auto]. }
        rewrite E; cbn [bind fst snd].
        destruct (N.eqb_spec (10 * w + n) 0); [lia|]; destruct (N.eqb_spec q 0); [lia|]; cbn [orb].
        destruct (N.leb_spec q (10 * w + n)); [|lia].
        assert (Ed : ((10 * w + n) / 10 = w)%N) by lia; assert (Em : ((10 * w + n) mod 10 = n)%N) by lia; rewrite Ed, Em in *.
        destruct (N.eqb_spec n 0); [lia|]; do 3 f_equal.
        destruct (fraction_value w n q ltac:(lia) ltac:(lia) ltac:(lia)) as [A B]; f_equal; apply U; assumption.
  - assert (Nb : has "/" body = false) by (apply F; reflexivity); split.
    + intros H; destruct ((Z.of_nat (slen body) <? 1)%Z || (2 <? Z.of_nat (slen body))%Z) eqn:B; [discriminate H|].
      rewrite strToUint_mid in H by lia; cbn [bind] in H; destruct (decimal body) as [v|] eqn:D; [|discriminate H].
      assert (Nv : numeral12 body v) by (apply numeral12_iff; split; [lia | exact D]); pose proof (short_bound _ _ Nv).
      unfold statuteMileFactor in H; rewrite u32_id in H by lia; injection H as <-.
      exists v, 0%N, 1%N; eexists; split; [constructor; exact Nv|]; split; [reflexivity|]; lia.
    + intros (w & n & q & k' & M & -> & Lo & Hi).
      inversion M as [s v N1|s1 s2 n' q' N1 N2 Pn Pq X|s0 s1 s2 w' n' q' N0 N1 N2 Pn Pq X]; subst.
      * pose proof (short_bound _ _ N1); apply numeral12_iff in N1; destruct N1 as [L D].
        replace ((Z.of_nat (slen body) <? 1)%Z || (2 <? Z.of_nat (slen body))%Z) with false by lia.
        rewrite strToUint_mid by lia; cbn [bind]; rewrite D; unfold statuteMileFactor; rewrite u32_id by lia; do 4 f_equal; lia.
      * rewrite !has_app in Nb; cbn in Nb; rewrite !Bool.orb_true_r in Nb; discriminate Nb.
      * rewrite !has_app in Nb; cbn in Nb; rewrite !Bool.orb_true_r in Nb; discriminate Nb.
Qed.
