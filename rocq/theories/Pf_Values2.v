(** What the value parsers recognise and return: distances and directions. *)
From Verif Require Import Prim Lib Regex Float Values SpecRegex Pf_Regex Pf_Caps SpecForm SpecDecimal Pf_Decimal Pf_Form SpecNumeral Pf_Numeral.
Local Open Scope string_scope.

Lemma u32_id : forall x, (x < 4294967296)%N -> u32 x = x.
Proof. intros x H; apply u32_small; exact H. Qed.

Lemma meter_parse : forall s d, Distance_fromMeterString s = Ok (Some d)
  <-> (s = "////" /\ d = mkDist DM_NONE None METERS)
      \/ (s = "9999" /\ d = mkDist DM_MORE_THAN (Some 10000%N) METERS)
      \/ (exists v, numeral 4 s v /\ v <> 9999%N /\ d = mkDist DM_NONE (Some v) METERS).
Proof.
  intros s d; split.
  - intros H; unfold Distance_fromMeterString in H; follow H.
    + given H; left; auto.
    + apply N.eqb_eq in Heqb0; subst n; given H; right; left; split; [|reflexivity].
      clear - Heqo; cbn [decimal] in Heqo.
      repeat match type of Heqo with context [digit_of ?c] => destruct (digit_of c) eqn:? end; try discriminate Heqo.
      cbn in Heqo; injection Heqo as E.
      assert (forall c d, digit_of c = Some d -> (d < 10)%N) as B.
      { clear; intros c d H; destruct c as [[] [] [] [] [] [] [] []]; try discriminate H; injection H as <-; reflexivity. }
      assert (forall c, digit_of c = Some 9%N -> c = "9"%char) as C.
      { clear; intros c H; destruct c as [[] [] [] [] [] [] [] []]; try discriminate H; reflexivity. }
      pose proof (B _ _ Heqo0); pose proof (B _ _ Heqo1); pose proof (B _ _ Heqo2); pose proof (B _ _ Heqo3).
      assert (n = 9 /\ n0 = 9 /\ n1 = 9 /\ n2 = 9)%N as (-> & -> & -> & ->) by lia.
      rewrite (C _ Heqo0), (C _ Heqo1), (C _ Heqo2), (C _ Heqo3); reflexivity.
    + apply N.eqb_neq in Heqb0; given H; right; right; exists n; split; [split; [reflexivity | assumption] | auto].
  - unfold Distance_fromMeterString; intros [[-> ->]|[[-> ->]|(v & [L D] & N & ->)]]; try reflexivity.
    apply N.eqb_neq in N; back; congruence.
Qed.
Lemma height_parse : forall s d, Distance_fromHeightString s = Ok (Some d)
  <-> (s = "///" /\ d = mkDist DM_NONE None FEET)
      \/ (exists v, numeral 3 s v /\ d = mkDist DM_NONE (Some (100 * v)%N) FEET).
Proof.
  intros s d; split.
  - intros H; unfold Distance_fromHeightString in H; follow H.
    + given H; left; auto.
    + bounds; unfold heightFactor in H; rewrite u32_id, N.mul_comm in H by lia; given H; right; pick1.
  - unfold Distance_fromHeightString, heightFactor; intros [[-> ->]|(v & [L D] & ->)]; [reflexivity|].
    back; bounds; rewrite u32_id, N.mul_comm by lia; reflexivity.
Qed.
Lemma rvr_parse : forall s feet d, Distance_fromRvrString s feet = Ok (Some d)
  <-> (s = "////" /\ d = mkDist DM_NONE None (if feet then FEET else METERS))
      \/ exists prefix m n v, s = prefix ++ n /\ In (prefix, m) [("", DM_NONE); ("M", DM_LESS_THAN); ("P", DM_MORE_THAN)]
           /\ numeral 4 n v /\ d = mkDist m (Some v) (if feet then FEET else METERS).
Proof.
  intros s feet d; split.
  - intros H; unfold Distance_fromRvrString, Distance_modifierFromChar in H; follow H.
    + given H; left; auto.
    + given H; right; exists "", DM_NONE; pick1.
    + given H; right; exists "M", DM_LESS_THAN; pick1.
    + given H; right; exists "P", DM_MORE_THAN; pick1.
  - unfold Distance_fromRvrString, Distance_modifierFromChar; intros [[-> ->]|(p & m & n & v & -> & P & [L D] & ->)]; [destruct feet; reflexivity|].
    cbn [In] in P; destruct P as [P|[P|[P|[]]]]; injection P as <- <-.
    + explode; cbn [append slen String.length Nat.eqb]; destruct (seqb _ "////") eqn:E; [bool_facts; discriminate D|]; numbers; rewrite D; reflexivity.
    + explode; cbn [append slen String.length Nat.eqb bind sget String.get Ascii.eqb Bool.eqb]; numbers; rewrite D; reflexivity.
    + explode; cbn [append slen String.length Nat.eqb bind sget String.get Ascii.eqb Bool.eqb]; numbers; rewrite D; reflexivity.
Qed.
Lemma layer_parse : forall s r, Distance_fromLayerString s = Ok (Some r)
  <-> exists h t base depth, s = h ++ t /\ numeral 3 h base /\ numeral 1 t depth
      /\ r = (mkDist DM_NONE (Some (100 * base)%N) FEET, mkDist DM_NONE (Some (100 * base + 1000 * depth)%N) FEET).
Proof.
  intros s r; split.
  - intros H; unfold Distance_fromLayerString in H; follow H.
    bounds; unfold heightFactor, layerDepthFactor in H; rewrite !u32_id in H by lia; given H.
    exists (String c (String c0 (String c1 ""))), (String c2 ""), n, n0.
    refine (conj eq_refl (conj (conj eq_refl Heqo) (conj (conj eq_refl Heqo0) _))).
    rewrite (N.mul_comm n), (N.mul_comm n0); reflexivity.
  - unfold Distance_fromLayerString, heightFactor, layerDepthFactor; intros (h & t & b & dp & -> & [L1 D1] & [L2 D2] & ->).
    back; bounds; rewrite !u32_id by lia; rewrite (N.mul_comm b), (N.mul_comm dp); reflexivity.
Qed.
Lemma km_parse : forall s d, Distance_fromKmString s = Ok (Some d)
  <-> exists n v, s = n ++ "KM" /\ (numeral 1 n v \/ numeral 2 n v) /\ d = mkDist DM_NONE (Some (1000 * v)%N) METERS.
Proof.
  intros s d; split.
  - intros H; unfold Distance_fromKmString, substr_from, substr in H.
    destruct (Nat.eqb (slen s) 3) eqn:L3.
    + follow H; bounds; rewrite u32_id, N.mul_comm in H by lia; given H.
      exists (String c ""), n; split; [reflexivity|]; split; [left; split; [reflexivity | exact Heqo] | reflexivity].
    + destruct (Nat.eqb (slen s) 4) eqn:L4; [|discriminate H].
      follow H; bounds; rewrite u32_id, N.mul_comm in H by lia; given H.
      exists (String c (String c0 "")), n; split; [reflexivity|]; split; [right; split; [reflexivity | exact Heqo] | reflexivity].
  - unfold Distance_fromKmString; intros (n & v & -> & [[L D]|[L D]] & ->); explode; cbn [append slen String.length Nat.eqb andb negb Nat.sub];
      unfold substr_from, substr; cbn [slen String.length Nat.leb substring bind seqb String.eqb Ascii.eqb Bool.eqb negb]; numbers; rewrite D; bounds;
      cbn [bind]; rewrite u32_id, N.mul_comm by lia; reflexivity.
Qed.
