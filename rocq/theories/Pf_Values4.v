(** What Distance::fromMileString and Distance::fromIntegerAndFraction decode (C26). *)
From Verif Require Import Prim Lib Regex Float Values SpecRegex Pf_Regex Pf_Caps SpecForm SpecDecimal Pf_Decimal Pf_Form SpecNumeral Pf_Numeral Pf_Values2 SpecMiles Pf_Values3.
Local Open Scope string_scope.

Lemma split_last : forall s n, (n <= slen s)%nat -> s = substring 0 (slen s - n) s ++ substring (slen s - n) n s.
Proof.
  intros s n L; rewrite <- (substring0_sdrop_app (slen s - n) s) at 1; f_equal.
  rewrite substring_sdrop; assert (E : slen (sdrop (slen s - n) s) = n) by (rewrite sdrop_len; lia).
  rewrite <- E at 2; rewrite substring0_all; reflexivity.
Qed.

Definition mile_prefix (p : string) (m : DistModifier) : Prop :=
  p = "" /\ m = DM_NONE \/ p = "M" /\ m = DM_LESS_THAN \/ p = "P" /\ m = DM_MORE_THAN.

(** The part after the suffix is checked *)
Definition miles_tail (s : string) (tailLength : nat) : res (option Distance) :=
  let! c0 := sget s 0 in
  let modifier := Distance_modifierFromChar c0 in
  let dmod := match modifier with Some m => m | None => DM_NONE end in
  let skip := if has_value modifier then 1%nat else 0%nat in
  let bodyLength := (Z.of_nat (slen s) - Z.of_nat tailLength - Z.of_nat skip)%Z in
  match sfind "/" s 0 with
  | None =>
    if (bodyLength <? 1)%Z || (2 <? bodyLength)%Z then Ok None else
    let? d := strToUint s skip (Z.to_nat bodyLength) in
    Ok (Some (mkDist dmod (Some (u32 (d * statuteMileFactor))) STATUTE_MILES))
  | Some _ =>
    let? fraction := fractionStrToUint s skip (Z.to_nat bodyLength) in
    let numerator := fst fraction in
    let denominator := snd fraction in
    if (numerator =? 0)%N || (denominator =? 0)%N then Ok None else
    let integer := if (denominator <=? numerator)%N then (numerator / 10)%N else 0%N in
    let numerator' := if (denominator <=? numerator)%N then (numerator mod 10)%N else numerator in
    if (numerator' =? 0)%N then Ok None else
    Ok (Some (mkDist dmod
      (Some (u32 (integer * statuteMileFactor + u32 (numerator' * statuteMileFactor) / denominator)))
      STATUTE_MILES))
  end.
Lemma miles_tail_core : forall p m body post, mile_prefix p m ->
  (p = "" -> forall c r, body ++ post = String c r -> Distance_modifierFromChar c = None) ->
  p ++ body ++ post <> "" ->
  miles_tail (p ++ body ++ post) (slen post) = miles_core (p ++ body ++ post) (slen p) (slen body) m.
Proof.
  intros p m body post [[-> ->]|[[-> ->]|[-> ->]]] H NE; unfold miles_tail, miles_core.
  - specialize (H eq_refl); cbn [append] in *; destruct (body ++ post) as [|c r] eqn:E; [contradiction|].
    change (sget (String c r) 0) with (@Ok ascii c); cbn [bind].
    rewrite (H _ _ eq_refl); cbn [has_value].
    assert (L : (slen (String c r) = slen body + slen post)%nat) by (rewrite <- E, slen_app; reflexivity); rewrite L.
    replace (Z.of_nat (slen body + slen post) - Z.of_nat (slen post) - Z.of_nat 0)%Z with (Z.of_nat (slen body)) by lia.
    reflexivity.
  - cbn [append]; change (sget (String "M" (body ++ post)) 0) with (@Ok ascii "M"%char); cbn [bind].
    change (Distance_modifierFromChar "M") with (Some DM_LESS_THAN); cbn [has_value].
    assert (L : (slen (String "M" (body ++ post)) = S (slen body + slen post))%nat) by (change (slen (String "M" (body ++ post))) with (S (slen (body ++ post))); rewrite slen_app; reflexivity); rewrite L.
    replace (Z.of_nat (S (slen body + slen post)) - Z.of_nat (slen post) - Z.of_nat 1)%Z with (Z.of_nat (slen body)) by lia.
    reflexivity.
  - cbn [append]; change (sget (String "P" (body ++ post)) 0) with (@Ok ascii "P"%char); cbn [bind].
    change (Distance_modifierFromChar "P") with (Some DM_MORE_THAN); cbn [has_value].
    assert (L : (slen (String "P" (body ++ post)) = S (slen body + slen post))%nat) by (change (slen (String "P" (body ++ post))) with (S (slen (body ++ post))); rewrite slen_app; reflexivity); rewrite L.
    replace (Z.of_nat (S (slen body + slen post)) - Z.of_nat (slen post) - Z.of_nat 1)%Z with (Z.of_nat (slen body)) by lia.
    reflexivity.
Qed.
Lemma digit_no_modifier : forall c d, digit_of c = Some d -> Distance_modifierFromChar c = None.
Proof. intros c d H; destruct c as [[] [] [] [] [] [] [] []]; try discriminate H; reflexivity. Qed.
Lemma short_head : forall s v, short_numeral s v -> exists c r d, s = String c r /\ digit_of c = Some d.
Proof.
  intros s v [[L D]|[L D]]; explode; eexists _, _; cbn [decimal] in D;
    destruct (digit_of c) eqn:X; try discriminate D; eauto.
Qed.
Lemma mile_head : forall s w n q, MileText s w n q -> exists c r d, s = String c r /\ digit_of c = Some d.
Proof.
  intros s w n q M; inversion M as [s' v N1|s1 s2 n' q' N1 N2 Pn Pq X|s0 s1 s2 w' n' q' N0 N1 N2 Pn Pq X]; subst.
  - eapply short_head; eassumption.
  - destruct (short_head _ _ N1) as (c & r & d & -> & D); cbn; eauto.
  - destruct (short_head s0 w (or_introl N0)) as (c & r & d & -> & D); cbn; eauto.
Qed.
Lemma miles_tail_parse : forall x post d, has "/" post = false -> (x = "" -> post = "") ->
  (forall c r, post = String c r -> Distance_modifierFromChar c = None) ->
  x <> "" ->
  miles_tail (x ++ post) (slen post) = Ok (Some d)
  <-> exists p m body w n q k, x = p ++ body /\ mile_prefix p m /\ MileText body w n q
      /\ d = mkDist m (Some k) STATUTE_MILES /\ (k * q <= 10000 * (w * q + n) < (k + 1) * q)%N.
Proof.
  intros x post d Hp Hx Hm NE.
  assert (C : exists p m body, x = p ++ body /\ mile_prefix p m
              /\ (p = "" -> forall c r, body ++ post = String c r -> Distance_modifierFromChar c = None)).
  { destruct x as [|c r]; [contradiction|].
    destruct (ascii_dec c "M") as [->|N1]; [exists "M", DM_LESS_THAN, r; unfold mile_prefix; intuition discriminate|].
    destruct (ascii_dec c "P") as [->|N2]; [exists "P", DM_MORE_THAN, r; unfold mile_prefix; intuition discriminate|].
    exists "", DM_NONE, (String c r); unfold mile_prefix; split; [reflexivity|]; split; [auto|].
    intros _ c' r' E; injection E as <- _; unfold Distance_modifierFromChar.
    destruct (Ascii.eqb_spec c "M"); [contradiction|]; destruct (Ascii.eqb_spec c "P"); [contradiction|reflexivity]. }
  destruct C as (p & m & body & -> & P & H); rewrite sapp_assoc.
  assert (NE2 : p ++ body ++ post <> "") by (intros E; destruct p as [|? ?]; [|discriminate E]; destruct body; [contradiction|discriminate E]).
  assert (Hpp : has "/" p = false) by (destruct P as [[-> _]|[[-> _]|[-> _]]]; reflexivity).
  rewrite (miles_tail_core p m body post P H NE2), (miles_core_parse p body post m d Hpp Hp); split.
  - intros (w & n & q & k & M & E & B); exists p, m, body, w, n, q, k; auto.
  - intros (p' & m' & body' & w & n & q & k & E & P' & M & Ed & B).
    destruct (mile_head _ _ _ _ M) as (c & r & dg & -> & D).
    assert (Same : p = p' /\ body = String c r).
    { pose proof (digit_no_modifier _ _ D) as Nm.
      destruct P as [[-> ->]|[[-> ->]|[-> ->]]]; destruct P' as [[-> ->]|[[-> ->]|[-> ->]]]; cbn [append] in *;
        try (split; congruence); exfalso.
      - subst body; specialize (H eq_refl "M"%char _ eq_refl); discriminate H.
      - subst body; specialize (H eq_refl "P"%char _ eq_refl); discriminate H.
      - injection E as <- _; discriminate Nm.
      - injection E as <- _; discriminate Nm. }
    destruct Same as [<- ->]; exists w, n, q, k; split; [exact M|]; split; [|exact B].
    rewrite Ed; f_equal; destruct P as [[-> ->]|[[-> ->]|[-> ->]]]; destruct P' as [[X ->]|[[X ->]|[X ->]]]; try discriminate X; reflexivity.
Qed.
Lemma mile_parse : forall s remark d,
  Distance_fromMileString s remark = Ok (Some d)
  <-> remark = false /\ s = "////SM" /\ d = mkDist DM_NONE None STATUTE_MILES
   \/ exists p m body w n q k, s = p ++ body ++ (if remark then "" else "SM") /\ mile_prefix p m /\ MileText body w n q
      /\ d = mkDist m (Some k) STATUTE_MILES /\ (k * q <= 10000 * (w * q + n) < (k + 1) * q)%N.
Proof.
  intros s remark d; destruct remark.
  - destruct s as [|c0 r0].
    + split; [intros H; discriminate H|]; intros [[E _]|(p & m & body & w & n & q & k & E & _ & M & _)]; [discriminate E|].
      destruct (mile_head _ _ _ _ M) as (c & r & dg & -> & _); destruct p; discriminate E.
    + pose proof (miles_tail_parse (String c0 r0) "" d eq_refl ltac:(discriminate) ltac:(discriminate) ltac:(discriminate)) as T.
      assert (Z : forall a, a ++ "" = a) by (induction a; cbn; congruence).
      rewrite Z in T; change (Distance_fromMileString (String c0 r0) true) with (miles_tail (String c0 r0) (slen "")).
      rewrite T; split.
      * intros (p & m & body & w & n & q & k & E & R); right; exists p, m, body, w, n, q, k; rewrite Z; auto.
      * intros [[E _]|(p & m & body & w & n & q & k & E & R)]; [discriminate E|]; rewrite Z in E; exists p, m, body, w, n, q, k; auto.
  - unfold Distance_fromMileString; cbn [negb].
    destruct (Nat.ltb_spec (slen s) 3) as [L|L].
    + split; [intros H; discriminate H|]; intros [[_ [-> _]]|(p & m & body & w & n & q & k & E & _ & M & _)]; [cbn in L; lia|].
      destruct (mile_head _ _ _ _ M) as (c & r & dg & -> & _); subst s; rewrite !slen_app in L.
      change (slen (String c r)) with (S (slen r)) in L; cbn in L; lia.
    + destruct (seqb s "////SM") eqn:E1.
      * apply seqb_eq in E1; subst s; cbn [bind]; split.
        -- intros H; injection H as <-; auto.
        -- intros [[_ [_ ->]]|(p & m & body & w & n & q & k & E & P & M & _)]; [reflexivity|].
           destruct (mile_head _ _ _ _ M) as (c & r & dg & -> & D).
           destruct P as [[-> ->]|[[-> ->]|[-> ->]]]; injection E as E2 E3; try discriminate E2; subst c; discriminate D.
      * assert (NE1 : s <> "////SM") by (intros ->; discriminate E1).
        unfold substr; destruct (Nat.leb_spec (slen s - 2) (slen s)) as [_|?]; [|lia].
        replace (Nat.ltb (slen s) (slen s - 2)) with false by (symmetry; apply Nat.ltb_ge; lia); cbn [bind].
        pose proof (split_last s 2 ltac:(lia)) as Sp; set (x := substring 0 (slen s - 2) s) in Sp.
        assert (Lx : slen x = (slen s - 2)%nat) by (unfold x; rewrite substring0_len; lia).
        destruct (seqb (substring (slen s - 2) 2 s) "SM") eqn:E2; cbn [negb bind].
        -- apply seqb_eq in E2; rewrite E2 in Sp.
           assert (NX : x <> "") by (intros Z; rewrite Z in Lx; cbn in Lx; lia).
           change (miles_tail s (slen "SM") = Ok (Some d) <->
             false = false /\ s = "////SM" /\ d = mkDist DM_NONE None STATUTE_MILES
             \/ exists p m body w n q k, s = p ++ body ++ "SM" /\ mile_prefix p m /\ MileText body w n q
               /\ d = mkDist m (Some k) STATUTE_MILES /\ (k * q <= 10000 * (w * q + n) < (k + 1) * q)%N).
           rewrite Sp, (miles_tail_parse x "SM" d eq_refl); [| intros Z; contradiction | intros c r E; injection E as <- _; reflexivity | exact NX].
           split.
           ++ intros (p & m & body & w & n & q & k & E & R); right; exists p, m, body, w, n, q, k; rewrite E, sapp_assoc; auto.
           ++ intros [[_ [E _]]|(p & m & body & w & n & q & k & E & R)]; [rewrite <- Sp in E; contradiction|].
              exists p, m, body, w, n, q, k; split; [|exact R].
              rewrite <- (sapp_assoc p) in E.
              assert (I : forall a b, a ++ "SM" = b ++ "SM" -> a = b).
              { clear; induction a as [|c a IH]; intros [|c' b] E; try reflexivity.
                - exfalso; assert (slen "SM" = slen (String c' b ++ "SM")) as Z by (rewrite <- E; reflexivity); rewrite slen_app in Z; cbn in Z; lia.
                - exfalso; assert (slen "SM" = slen (String c a ++ "SM")) as Z by (rewrite E; reflexivity); rewrite slen_app in Z; cbn in Z; lia.
                - injection E as -> E; f_equal; auto. }
              apply I; exact E.
        -- split; [intros H; discriminate H|]; intros [[_ [E _]]|(p & m & body & w & n & q & k & E & P & M & _)]; [contradiction|].
           exfalso; rewrite <- (sapp_assoc p) in E.
           assert (Z : substring (slen s - 2) 2 s = "SM").
           { rewrite E, slen_app; change (slen "SM") with 2%nat; rewrite Nat.add_sub.
             pose proof (substring_mid (p ++ body) "SM" "") as Q; change (slen "SM") with 2%nat in Q; exact Q. }
           rewrite Z in E2; discriminate E2.
Qed.

(** Whole miles in one group and the fraction in the next *)
Lemma whole_and_fraction : forall i f d,
  Distance_fromIntegerAndFraction i f = Ok (Some d)
  <-> exists m a b, i = mkDist m (Some a) STATUTE_MILES /\ f = mkDist DM_NONE (Some b) STATUTE_MILES
      /\ m <> DM_DISTANT /\ m <> DM_VICINITY /\ (a mod 10000 = 0)%N /\ (b mod 10000 <> 0)%N
      /\ d = mkDist m (Some (u32 (a + b))) STATUTE_MILES.
Proof.
  intros [mi [a|] ui] [mf [b|] uf] d; unfold Distance_fromIntegerAndFraction, statuteMileFactor; cbn [distModifier dist distUnit has_value deref bind negb];
    rewrite ?Bool.orb_true_r;
    try solve [split; [intros H; destruct mi, mf, ui, uf; discriminate H | intros (m & x & y & E1 & E2 & _); discriminate]].
  split.
  - intros H; destruct mi, mf, ui, uf; try discriminate H; cbn in H;
      (destruct (N.eqb_spec (a mod 10000) 0); [|discriminate H]; destruct (N.eqb_spec (b mod 10000) 0); [discriminate H|]; injection H as <-);
      (eexists _, a, b; repeat split; [discriminate | discriminate | assumption | assumption]).
  - intros (m & x & y & E1 & E2 & N1 & N2 & A & B & ->); injection E1 as -> -> ->; injection E2 as -> -> ->.
    rewrite A; apply N.eqb_neq in B; destruct m; try congruence; cbn; rewrite B; reflexivity.
Qed.
