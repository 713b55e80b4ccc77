(** Formats, exactly (C21) *)
From Verif Require Import Prim Lib Regex Float Values Weather SpecRegex Pf_Regex Pf_Caps SpecForm SpecDecimal Pf_Decimal Pf_Form SpecNumeral Pf_Numeral Pf_Values1 Pf_Values2 SpecMiles Pf_Values3 Pf_Values4 Pf_Forms Pf_Values5 Pf_Formats Pf_Cloud.
From Coq Require Import Lia ZifyBool ZifyN ZifyNat.
Local Open Scope string_scope.

Lemma prefix_miles : forall p, p = "" \/ p = "P" \/ p = "M" -> exists m, mile_prefix p m.
Proof. unfold mile_prefix; intros p [->|[->| ->]]; eauto 6. Qed.
Lemma text_accepted : forall p body w n q (remark : bool), p = "" \/ p = "P" \/ p = "M" -> MileText body w n q ->
  accepted (Distance_fromMileString (p ++ body ++ (if remark then "" else "SM")) remark).
Proof.
  intros p body w n q remark P T; destruct (prefix_miles p P) as (m & Hm).
  assert (Q : (0 < q)%N) by (inversion T; subst; lia).
  eexists; apply mile_parse; right; exists p, m, body, w, n, q, (10000 * (w * q + n) / q)%N.
  split; [reflexivity|]; split; [exact Hm|]; split; [exact T|]; split; [reflexivity|].
  pose proof (N.div_mod (10000 * (w * q + n)) q ltac:(lia)); pose proof (N.mod_lt (10000 * (w * q + n)) q ltac:(lia)); nia.
Qed.
Lemma numeral_fun : forall n s v n' v', numeral n s v -> numeral n' s v' -> v = v' /\ n = n'.
Proof. intros n s v n' v' [<- D] [<- D']; split; congruence. Qed.
Lemma fraction_text : forall s1 s2 n d, short_numeral s1 n -> short_numeral s2 d ->
  ~ (n = 0 \/ d = 0 \/ numeral 2 s1 n /\ n mod 10 = 0 /\ d <= n)%N ->
  exists w n' q, MileText (s1 ++ "/" ++ s2) w n' q.
Proof.
  intros s1 s2 n d A B Z; destruct (N.lt_ge_cases n d) as [L|L].
  - exists 0%N, n, d; constructor; auto; lia.
  - destruct A as [A|A]; [exists 0%N, n, d; constructor; auto; try (left; exact A); lia|].
    pose proof A as A'; destruct A as [Ln D]; destruct s1 as [|a [|b [|? ?]]]; try discriminate Ln.
    destruct (two_digits_split _ _ _ D) as (x & y & X & Y & E & Bx & By).
    assert (Ny : y <> 0%N). { intros ->; apply Z; right; right; split; [exact A'|]; split; [|exact L]; subst n; rewrite N.add_0_r, N.mul_comm; apply N.mod_mul; lia. }
    exists x, y, d; change (String a (String b "") ++ "/" ++ s2) with (String a "" ++ String b "" ++ "/" ++ s2).
    constructor; [split; auto | split; auto | exact B | lia | lia | lia].
Qed.
Lemma text_of_fraction : forall s1 s2 n d w n' q body, short_numeral s1 n -> short_numeral s2 d -> MileText body w n' q -> body = s1 ++ "/" ++ s2 ->
  (n <> 0 /\ d <> 0 /\ (numeral 2 s1 n -> n mod 10 <> 0 \/ n < d))%N.
Proof.
  intros s1 s2 n d w n' q body A B T E.
  assert (Dig : forall s v k, numeral k s v -> forall c t, s = String c t -> c <> "/"%char).
  { intros s v k N c t -> ->; destruct N as [_ D]; discriminate D. }
  assert (Dig2 : forall s v k, numeral k s v -> forall a c t, s = String a (String c t) -> c <> "/"%char).
  { intros s v k N a c t -> ->; destruct N as [_ D]; cbn in D; destruct (digit_of a); discriminate D. }
  inversion T as [s' v N1|t1 t2 m e N1 N2 Pm Pe X|t0 t1 t2 w' m e N0 N1 N2 Pm Pe X]; subst.
  - exfalso; destruct N1 as [[L N1]|[L N1]]; destruct A as [[La Da]|[La Da]]; destruct s1 as [|a [|b [|? ?]]]; try discriminate La;
      cbn in L; destruct B as [[Lb _]|[Lb _]]; destruct s2 as [|a' [|b' [|? ?]]]; cbn in L; discriminate.
  - assert (Q : t1 = s1 /\ t2 = s2).
    { destruct N1 as [N1|N1]; destruct A as [A|A]; pose proof (Dig _ _ _ N1) as K1; pose proof (Dig _ _ _ A) as K2; pose proof (Dig2 _ _ _ N1) as K3; pose proof (Dig2 _ _ _ A) as K4;
        destruct N1 as [L1 _]; destruct A as [L2 _]; destruct t1 as [|a [|b [|? ?]]]; try discriminate L1; destruct s1 as [|a' [|b' [|? ?]]]; try discriminate L2;
        cbn in H; injection H; intros; subst; try (split; reflexivity); exfalso; first [eapply K3; reflexivity | eapply K4; reflexivity]. }
    destruct Q as [-> ->].
    assert (n' = n /\ q = d) as [-> ->].
    { split; [destruct N1 as [N1|N1], A as [A|A] | destruct N2 as [N2|N2], B as [B|B]]; eapply numeral_fun; eauto. }
    split; [lia|]; split; [lia|]; intros N; destruct X as [X|X]; [auto|]; destruct (numeral_fun _ _ _ _ _ N X); discriminate.
  - destruct N0 as [L0 D0]; destruct N1 as [L1 D1]; destruct t0 as [|a [|? ?]]; try discriminate L0; destruct t1 as [|b [|? ?]]; try discriminate L1.
    cbn [append] in H; destruct A as [A|A]; pose proof A as A'; destruct A as [L2 D2]; [destruct s1 as [|a' [|b' [|? ?]]]; try discriminate L2; cbn in H; injection H; intros; subst; discriminate D1|].
    destruct s1 as [|a' [|b' [|? ?]]]; try discriminate L2; cbn in H; injection H; intros; subst; clear H.
    destruct (two_digits_split _ _ _ D2) as (x & y & Ex & Ey & En & Bx & By).
    assert (w = x /\ n' = y) as [-> ->] by (split; congruence).
    assert (q = d) as -> by (destruct N2 as [N2|N2], B as [B|B]; eapply numeral_fun; eauto).
    split; [lia|]; split; [lia|]; intros _; left; subst n; rewrite N.add_comm, N.mul_comm, N.mod_add by lia; rewrite N.mod_small by lia; lia.
Qed.
Lemma sapp_inj_r : forall a b e : string, a ++ e = b ++ e -> a = b.
Proof.
  intros a b e H; assert (L : slen a = slen b) by (apply (f_equal slen) in H; rewrite !slen_app in H; lia).
  revert b H L; induction a as [|c a IH]; intros [|c' b] H L; try discriminate L; [reflexivity|].
  cbn in H; injection H as -> H; f_equal; apply IH; [exact H | injection L as L; exact L].
Qed.
Lemma mile_text_start : forall body w n q, MileText body w n q -> exists c t, body = String c t /\ is_digit c = true.
Proof.
  assert (K : forall k s v, numeral (S k) s v -> exists c t, s = String c t /\ is_digit c = true).
  { intros k [|c t] v [L D]; [discriminate L|]; exists c, t; split; [reflexivity|]; cbn in D; destruct (digit_of c) eqn:X; [|discriminate D].
    clear - X; destruct c as [[] [] [] [] [] [] [] []]; try discriminate X; reflexivity. }
  intros body w n q T; inversion T as [s' v N1|t1 t2 m e N1 N2 Pm Pe X|t0 t1 t2 w' m e N0 N1 N2 Pm Pe X]; subst.
  - destruct N1 as [N1|N1]; destruct (K _ _ _ N1) as (c & t & -> & C); eauto.
  - destruct N1 as [N1|N1]; destruct (K _ _ _ N1) as (c & t & -> & C); cbn; eauto.
  - destruct (K _ _ _ N0) as (c & t & -> & C); cbn; eauto.
Qed.
Lemma fraction_start : forall s1 n, short_numeral s1 n -> exists c t, s1 = String c t /\ is_digit c = true.
Proof. intros s1 n H; eapply mile_text_start, Miles_whole; exact H. Qed.
Lemma proper : forall (remark : bool) s, accepted (Distance_fromMileString s remark) -> ~ improper_miles (if remark then "" else "SM") s.
Proof.
  intros remark s (d & H) (p' & s1 & s2 & n & q & P' & E & A & B & Z); apply mile_parse in H.
  destruct (fraction_start _ _ A) as (c1 & t1 & -> & C1).
  destruct H as [(-> & -> & _)|(p & m & body & w & n' & q' & k & -> & P & T & _)].
  - destruct P' as [->|[->| ->]]; cbn in E; injection E; intros; subst; discriminate.
  - assert (Q : body = String c1 t1 ++ "/" ++ s2).
    { destruct (mile_text_start _ _ _ _ T) as (c & t & -> & C).
      destruct P as [[-> _]|[[-> _]|[-> _]]]; destruct P' as [->|[->| ->]]; cbn [append] in E;
        try (exfalso; injection E; intros; subst; discriminate);
        apply (sapp_inj_r _ _ (if remark then "" else "SM")); cbn [append]; rewrite ?sapp_assoc; cbn [append]; solve [congruence | injection E as -> E; congruence]. }
    destruct (text_of_fraction _ _ _ _ _ _ _ _ A B T Q) as (N0 & D0 & K); destruct Z as [Z|[Z|(Z1 & Z2 & Z3)]]; [tauto|tauto|].
    specialize (K Z1); lia.
Qed.
Ltac fraction_shape p a ka b kb NI :=
  num a ka; num b kb;
  match goal with NA : numeral _ a ?n, NB : numeral _ b ?d |- accepted (Distance_fromMileString _ ?r) =>
    let w := fresh "w" in let n' := fresh "n'" in let q := fresh "q" in let T := fresh "T" in let Z := fresh "Z" in
    destruct (fraction_text a b n d) as (w & n' & q & T);
    [solve [left; exact NA | right; exact NA] | solve [left; exact NB | right; exact NB]
    | intros Z; apply NI; exists p, a, b, n, d;
      split; [auto|]; split; [reflexivity|]; split; [solve [left; exact NA | right; exact NA]|]; split; [solve [left; exact NB | right; exact NB]|]; exact Z
    | exact (text_accepted p _ _ _ _ r ltac:(auto) T)]
  end.
Ltac whole_shape p a ka :=
  num a ka;
  match goal with NA : numeral _ a ?n |- accepted (Distance_fromMileString _ ?r) =>
    exact (text_accepted p _ _ _ _ r ltac:(auto) (Miles_whole a n ltac:(first [left; exact NA | right; exact NA])))
  end.
Ltac miles_shape p s NI :=
  lazymatch s with
  | String ?a (String "/" (String ?b "")) => fraction_shape p (String a "") 1%nat (String b "") 1%nat NI
  | String ?a (String "/" (String ?b (String "S" _))) => fraction_shape p (String a "") 1%nat (String b "") 1%nat NI
  | String ?a (String "/" (String ?b (String ?c _))) => fraction_shape p (String a "") 1%nat (String b (String c "")) 2%nat NI
  | String ?a (String ?a' (String "/" (String ?b ""))) => fraction_shape p (String a (String a' "")) 2%nat (String b "") 1%nat NI
  | String ?a (String ?a' (String "/" (String ?b (String "S" _)))) => fraction_shape p (String a (String a' "")) 2%nat (String b "") 1%nat NI
  | String ?a (String ?a' (String "/" (String ?b (String ?c _)))) => fraction_shape p (String a (String a' "")) 2%nat (String b (String c "")) 2%nat NI
  | String ?a "" => whole_shape p (String a "") 1%nat
  | String ?a (String "S" _) => whole_shape p (String a "") 1%nat
  | String ?a (String ?b _) => whole_shape p (String a (String b "")) 2%nat
  end.
Lemma remark_mile_format_exact : forall s, accepted (Distance_fromMileString s true) <-> matches "([PM])?(\d?\d)(?:/(\d?\d))?" s /\ ~ improper_miles "" s.
Proof.
  intros s; split; [intros H; split; [apply remark_mile_format; exact H | apply (proper true); exact H]|].
  assert (M : forall s, matches "([PM])?(\d?\d)(?:/(\d?\d))?" s <-> fits_one
    [[one_of "PM"; digit; digit; just "/"; digit; digit]; [one_of "PM"; digit; digit; just "/"; digit];
     [one_of "PM"; digit; digit];
     [one_of "PM"; digit; just "/"; digit; digit]; [one_of "PM"; digit; just "/"; digit];
     [one_of "PM"; digit];
     [digit; digit; just "/"; digit; digit]; [digit; digit; just "/"; digit];
     [digit; digit];
     [digit; just "/"; digit; digit]; [digit; just "/"; digit];
     [digit]] s) by forms_tac.
  rewrite M; clear M; intros [H NI]; each_form H.
  all: match goal with
  | |- accepted (Distance_fromMileString (String ?a ?r) _) =>
    first [is_var a; miles_shape "" (String a r) NI | miles_shape (String a "") r NI]
  end.
Qed.
Lemma mile_format_exact : forall s, accepted (Distance_fromMileString s false) <-> matches "([PM])?(\d?\d)(?:/(\d?\d))?SM|////SM" s /\ ~ improper_miles "SM" s.
Proof.
  intros s; split; [intros H; split; [apply mile_format; exact H | apply (proper false); exact H]|].
  assert (M : forall s, matches "([PM])?(\d?\d)(?:/(\d?\d))?SM|////SM" s <-> fits_one
    [[one_of "PM"; digit; digit; just "/"; digit; digit; just "S"; just "M"]; [one_of "PM"; digit; digit; just "/"; digit; just "S"; just "M"];
     [one_of "PM"; digit; digit; just "S"; just "M"];
     [one_of "PM"; digit; just "/"; digit; digit; just "S"; just "M"]; [one_of "PM"; digit; just "/"; digit; just "S"; just "M"];
     [one_of "PM"; digit; just "S"; just "M"];
     [digit; digit; just "/"; digit; digit; just "S"; just "M"]; [digit; digit; just "/"; digit; just "S"; just "M"];
     [digit; digit; just "S"; just "M"];
     [digit; just "/"; digit; digit; just "S"; just "M"]; [digit; just "/"; digit; just "S"; just "M"];
     [digit; just "S"; just "M"]; text_form "////SM"] s) by forms_tac.
  rewrite M; clear M; intros [H NI]; each_form H.
  all: match goal with
  | |- accepted (Distance_fromMileString "////SM" _) => eexists; apply mile_parse; left; auto
  | |- accepted (Distance_fromMileString (String ?a ?r) _) =>
    first [is_var a; miles_shape "" (String a r) NI | miles_shape (String a "") r NI]
  end.
Qed.

(** ** Deviations *)
Ltac deviates w :=
  let H := fresh in intros H;
  match goal with
  | _ => let K := fresh in assert (K := proj1 (H w)); specialize (K ltac:(eexists; vm_compute; reflexivity)); apply is_match_lang in K; vm_compute in K; discriminate K
  end.
Lemma speed_format_refuted : ~ (forall s unit, accepted (Speed_fromString s unit) <-> matches "([1-9]?\d\d)|//" s).
Proof. intros H; assert (K := proj1 (H "" KNOTS)); specialize (K ltac:(eexists; vm_compute; reflexivity)); apply is_match_lang in K; vm_compute in K; discriminate K. Qed.
Lemma rainfall_format_refuted : ~ (forall s, accepted (Precipitation_fromRainfallString s) <-> matches "\d?\d\d\.\d" s).
Proof. deviates "//./". Qed.
Lemma deposits_format_refuted : ~ (forall s, accepted (Precipitation_fromRunwayDeposits s) <-> matches "\d\d" s).
Proof. deviates "//". Qed.
Lemma friction_format_refuted : ~ (forall s, accepted (SurfaceFriction_fromString s) <-> matches "\d\d" s).
Proof. deviates "//". Qed.
Lemma wave_format_refuted : ~ (forall s, accepted (WaveHeight_fromString s) <-> matches "S(\d)|H(\d?\d?\d)" s).
Proof. deviates "S/". Qed.
Lemma mile_format_refuted : ~ (forall s, accepted (Distance_fromMileString s false) <-> matches "([PM])?(\d?\d)(?:/(\d?\d))?SM|////SM" s).
Proof.
  intros H; assert (K := proj2 (H "1/0SM")); assert (M : matches "([PM])?(\d?\d)(?:/(\d?\d))?SM|////SM" "1/0SM") by (apply is_match_lang; vm_compute; reflexivity).
  destruct (K M) as (v & E); vm_compute in E; discriminate E.
Qed.
Lemma cloud_format_refuted : ~ (forall s, accepted (CloudType_fromString s) <-> matches "(\d)([A-Z][A-Z][A-Z]?)(\d\d\d)" s \/ matches "([A-Z][A-Z]+)(\d)" s).
Proof.
  intros H; assert (K := proj2 (H "8ZZ070")); assert (M : matches "(\d)([A-Z][A-Z][A-Z]?)(\d\d\d)" "8ZZ070") by (apply is_match_lang; vm_compute; reflexivity).
  destruct (K (or_introl M)) as (v & E); vm_compute in E; discriminate E.
Qed.
