(** Packing of weather phenomena, and the weather parsers return normally. *)
From Verif Require Import Prim Regex Float Values Weather Lib Pf_Ok SpecDecimal Pf_Decimal SpecRegex
  Pf_Regex Pf_Caps Pf_OkValues SpecWeather.
Local Open Scope string_scope.
Local Open Scope N_scope.

Lemma bits_lor : forall a b s m, bits (N.lor a b) s m = N.lor (bits a s m) (bits b s m).
Proof. intros; unfold bits; rewrite N.shiftr_lor, N.land_lor_distr_l; reflexivity. Qed.

Ltac each x := destruct x; try contradiction; reflexivity.

Lemma q_of_code : forall q, proper_q q -> q_of (q_code q) = q.  Proof. intros q H; each q. Qed.
Lemma d_of_code : forall q, proper_d q -> d_of (d_code q) = q.  Proof. intros q H; each q. Qed.
Lemma w_of_code : forall q, proper_w q -> w_of (w_code q) = q.  Proof. intros q H; each q. Qed.
Lemma e_of_code : forall q, proper_e q -> e_of (e_code q) = q.  Proof. intros q H; each q. Qed.

Definition wnum (n : nat) : N := N.of_nat (if Nat.ltb 3 n then 3%nat else n).
Lemma wnum_cases : forall n, wnum n = 0 \/ wnum n = 1 \/ wnum n = 2 \/ wnum n = 3.
Proof. intros n; unfold wnum; destruct (Nat.ltb_spec 3 n); lia. Qed.

(** Every field of a packed phenomenon can be read back. *)
Lemma pack_fields : forall q d n w1 w2 w3 e,
  proper_q q -> proper_d d -> proper_w w1 -> proper_w w2 -> proper_w w3 -> proper_e e ->
  let x := Wp_pack q d n w1 w2 w3 e in
  bits x 0 7 = q_code q /\ bits x 3 15 = d_code d /\ bits x 22 3 = wnum n
  /\ bits x 7 31 = w_code w1 /\ bits x 12 31 = w_code w2 /\ bits x 17 31 = w_code w3
  /\ bits x 24 3 = e_code e.
Proof.
  intros q d n w1 w2 w3 e Hq Hd H1 H2 H3 He; cbv zeta; unfold Wp_pack; fold (wnum n).
  assert (Q : forall s m, In (s, m) [(3,15); (22,3); (7,31); (12,31); (17,31); (24,3)] ->
    bits (shl32 (q_code q) 0) s m = 0).
  { intros s m H; repeat (destruct H as [H|H]; [inversion H; subst; each q|]); contradiction. }
  assert (D : forall s m, In (s, m) [(0,7); (22,3); (7,31); (12,31); (17,31); (24,3)] ->
    bits (shl32 (d_code d) 3) s m = 0).
  { intros s m H; repeat (destruct H as [H|H]; [inversion H; subst; each d|]); contradiction. }
  assert (W1 : forall s m, In (s, m) [(0,7); (3,15); (22,3); (12,31); (17,31); (24,3)] ->
    bits (shl32 (w_code w1) 7) s m = 0).
  { intros s m H; repeat (destruct H as [H|H]; [inversion H; subst; each w1|]); contradiction. }
  assert (W2 : forall s m, In (s, m) [(0,7); (3,15); (22,3); (7,31); (17,31); (24,3)] ->
    bits (shl32 (w_code w2) 12) s m = 0).
  { intros s m H; repeat (destruct H as [H|H]; [inversion H; subst; each w2|]); contradiction. }
  assert (W3 : forall s m, In (s, m) [(0,7); (3,15); (22,3); (7,31); (12,31); (24,3)] ->
    bits (shl32 (w_code w3) 17) s m = 0).
  { intros s m H; repeat (destruct H as [H|H]; [inversion H; subst; each w3|]); contradiction. }
  assert (E : forall s m, In (s, m) [(0,7); (3,15); (22,3); (7,31); (12,31); (17,31)] ->
    bits (shl32 (e_code e) 24) s m = 0).
  { intros s m H; repeat (destruct H as [H|H]; [inversion H; subst; each e|]); contradiction. }
  assert (W : forall s m, In (s, m) [(0,7); (3,15); (7,31); (12,31); (17,31); (24,3)] ->
    bits (shl32 (wnum n) 22) s m = 0).
  { intros s m H; destruct (wnum_cases n) as [-> |[-> |[-> | ->]]];
      repeat (destruct H as [H|H]; [inversion H; subst; reflexivity|]); contradiction. }
  rewrite !bits_lor.
  repeat match goal with |- context [bits (shl32 ?a ?b) ?s ?m] =>
    first [rewrite (Q s m) by (cbn; tauto) | rewrite (D s m) by (cbn; tauto)
          | rewrite (W1 s m) by (cbn; tauto) | rewrite (W2 s m) by (cbn; tauto)
          | rewrite (W3 s m) by (cbn; tauto) | rewrite (E s m) by (cbn; tauto)
          | rewrite (W s m) by (cbn; tauto)] end.
  rewrite ?N.lor_0_r, ?N.lor_0_l.
  repeat apply conj.
  - each q. - each d. - destruct (wnum_cases n) as [-> |[-> |[-> | ->]]]; reflexivity.
  - each w1. - each w2. - each w3. - each e.
Qed.

Definition nthw (l : list WpWeather) (i : nat) : WpWeather := nth i l W_NOT_REPORTED.

Lemma packv_eq : forall q d w e,
  Wp_packv q d w e = Ok (Wp_pack q d (List.length w) (nthw w 0) (nthw w 1) (nthw w 2) e).
Proof.
  intros q d w e; unfold Wp_packv.
  destruct w as [|a [|b [|c [|f w]]]]; reflexivity.
Qed.

Lemma nthw_proper : forall w i, Forall proper_w w -> proper_w (nthw w i).
Proof.
  intros w i H; unfold nthw; destruct (Nat.lt_ge_cases i (List.length w)) as [L|L].
  - rewrite Forall_forall in H; apply H, nth_In, L.
  - rewrite nth_overflow by exact L; exact I.
Qed.

Lemma wp_weather_of : forall x n w1 w2 w3 tm, bits x 22 3 = wnum n ->
  bits x 7 31 = w_code w1 -> bits x 12 31 = w_code w2 -> bits x 17 31 = w_code w3 ->
  proper_w w1 -> proper_w w2 -> proper_w w3 ->
  Wp_weather (mkWp x tm) = firstn (N.to_nat (wnum n)) [w1; w2; w3].
Proof.
  intros x n w1 w2 w3 tm A B C D P1 P2 P3; unfold Wp_weather; cbn [wpData].
  rewrite A, B, C, D, !w_of_code by assumption.
  destruct (wnum_cases n) as [-> |[-> |[-> | ->]]]; reflexivity.
Qed.

Lemma pack_shows : forall q d n w1 w2 w3 e tm,
  proper_q q -> proper_d d -> proper_w w1 -> proper_w w2 -> proper_w w3 -> proper_e e ->
  shows (mkWp (Wp_pack q d n w1 w2 w3 e) tm) q d (firstn (N.to_nat (wnum n)) [w1; w2; w3]) e.
Proof.
  intros q d n w1 w2 w3 e tm Hq Hd H1 H2 H3 He.
  destruct (pack_fields q d n w1 w2 w3 e Hq Hd H1 H2 H3 He) as (A & B & C & D & E & F & G).
  repeat split.
  - unfold Wp_qualifier; cbn [wpData]; rewrite A; apply q_of_code; exact Hq.
  - unfold Wp_descriptor; cbn [wpData]; rewrite B; apply d_of_code; exact Hd.
  - eapply wp_weather_of; eassumption.
  - unfold Wp_event; cbn [wpData]; rewrite G; apply e_of_code; exact He.
Qed.

(** The packed vector reads back as its first three elements. *)
Lemma packv_shows : forall q d w e tm,
  proper_q q -> proper_d d -> Forall proper_w w -> proper_e e ->
  exists x, Wp_packv q d w e = Ok x /\ shows (mkWp x tm) q d (firstn 3 w) e.
Proof.
  intros q d w e tm Hq Hd Hw He; rewrite packv_eq; eexists; split; [reflexivity|].
  pose proof (pack_shows q d (List.length w) (nthw w 0) (nthw w 1) (nthw w 2) e tm Hq Hd
    (nthw_proper w 0 Hw) (nthw_proper w 1 Hw) (nthw_proper w 2 Hw) He) as Sh.
  replace (firstn 3 w) with (firstn (N.to_nat (wnum (List.length w))) [nthw w 0; nthw w 1; nthw w 2]);
    [exact Sh|].
  destruct w as [|a [|b [|c w]]]; try reflexivity.
  replace (wnum (List.length (a :: b :: c :: w))) with 3; [reflexivity|].
  unfold wnum; cbn [List.length]; destruct (Nat.ltb_spec 3 (S (S (S (List.length w))))); lia.
Qed.

(** What every weather phenomenon made by the library looks like; in particular a freezing one has
    a phenomenon which can freeze, so that isValid() finds it before the end of the vector. *)
Definition can_freeze (w : WpWeather) : bool :=
  match w with W_DRIZZLE | W_RAIN | W_UNDETERMINED | W_FOG => true | _ => false end.
Definition wp_wf (p : WeatherPhenomena) : Prop :=
  exists q d w e, shows p q d w e /\ proper_q q /\ proper_d d /\ Forall proper_w w /\ proper_e e
    /\ (List.length w <= 3)%nat /\ (d = D_FREEZING -> existsb can_freeze w = true).

Lemma fz_loop_ok : forall w pre, existsb can_freeze w = true -> forall n,
  ok (wp_fz_loop n (List.length pre) (pre ++ w)) (fun _ => True).
Proof.
  induction w as [|x w IH]; intros pre H n; [discriminate|].
  destruct n as [|n]; [exact I|].
  cbn [wp_fz_loop]; rewrite nth_error_app2, Nat.sub_diag by lia; cbn [nth_error deref bind].
  cbn [existsb] in H; destruct (can_freeze x) eqn:E.
  - destruct x; try discriminate; exact I.
  - cbn in H; specialize (IH (pre ++ [x])%list H n).
    rewrite app_length in IH; cbn [List.length] in IH; rewrite Nat.add_1_r in IH.
    rewrite <- app_assoc in IH; cbn [app] in IH; destruct x; try discriminate; exact IH.
Qed.

Lemma wp_isValid_ok : forall p, wp_wf p -> ok (Wp_isValid p) (fun _ => True).
Proof.
  intros p (q & d & w & e & (Sq & Sd & Sw & Se) & Pq & Pd & Pw & Pe & L & F).
  unfold Wp_isValid; rewrite Sq, Sd, Sw; cbv zeta.
  ok_step; [exact I|]; ok_step; [exact I|]; ok_step; [|exact I].
  apply ok_bind; eapply ok_mono; [|intros; exact I].
  apply (fz_loop_ok w []), F; apply internal_WpDescriptor_dec_bl; assumption.
Qed.

Lemma wp_wf_of2 : forall w1 w2 d q, proper_w w1 -> proper_w w2 -> proper_d d -> proper_q q ->
  (d = D_FREEZING -> existsb can_freeze [w1; w2] = true) -> wp_wf (Wp_of2 w1 w2 d q).
Proof.
  intros w1 w2 d q A B C D F; exists q, d, [w1; w2], Ev_NONE; split.
  - apply (pack_shows q d 2 w1 w2 W_NOT_REPORTED Ev_NONE None); auto; exact I.
  - repeat split; auto.
Qed.
Lemma wp_wf_of1 : forall w d q, proper_w w -> proper_d d -> proper_q q ->
  (d = D_FREEZING -> can_freeze w = true) -> wp_wf (Wp_of1 w d q).
Proof.
  intros w d q A C D F; exists q, d, [w], Ev_NONE; split.
  - apply (pack_shows q d 1 w W_NOT_REPORTED W_NOT_REPORTED Ev_NONE None); auto; exact I.
  - repeat split; auto; cbn; try lia; intros E; rewrite (F E); reflexivity.
Qed.
Lemma wp_wf_ofD : forall d q, proper_d d -> proper_q q -> d <> D_FREEZING -> wp_wf (Wp_ofD d q).
Proof.
  intros d q C D F; exists q, d, [], Ev_NONE; split.
  - apply (pack_shows q d 0 W_NOT_REPORTED W_NOT_REPORTED W_NOT_REPORTED Ev_NONE None); auto; exact I.
  - repeat split; auto; cbn; try lia; intros E; contradiction.
Qed.
Lemma wp_wf_default : wp_wf WeatherPhenomena_default.
Proof.
  replace WeatherPhenomena_default with (Wp_ofD D_NONE Q_NONE) by (vm_compute; reflexivity).
  apply wp_wf_ofD; try exact I; discriminate.
Qed.
Lemma wp_wf_notReported : forall b, wp_wf (Wp_notReported b).
Proof. intros b; apply (wp_wf_of1 W_NOT_REPORTED D_NONE); destruct b; try exact I; discriminate. Qed.

Lemma lookup_in : forall (A : Type) (s : string) (t : list (string * A)) (v : A),
  lookup s t = Some v -> In (s, v) t.
Proof.
  induction t as [|[k x] t IH]; intros v H; cbn in H; [discriminate|].
  destruct (seqb s k) eqn:E; [apply seqb_eq in E; inv H; left; reflexivity | right; auto].
Qed.
Lemma lookup_forall : forall (A : Type) (P : A -> Prop) (s : string) (t : list (string * A)) (v : A),
  lookup s t = Some v -> Forall (fun e => P (snd e)) t -> P v.
Proof.
  intros A P s t v H F; apply lookup_in in H; rewrite Forall_forall in F; exact (F _ H).
Qed.

Lemma table_plain_wf : Forall (fun e : string * WeatherPhenomena => wp_wf (snd e)) wp_table_plain.
Proof.
  repeat (apply Forall_cons; [cbn [snd]|]); try apply Forall_nil;
    lazymatch goal with
    | |- wp_wf (Wp_of1 ?w ?d ?q) => apply (wp_wf_of1 w d q I I I)
    | |- wp_wf (Wp_of2 ?v ?w ?d ?q) => apply (wp_wf_of2 v w d q I I I I)
    | |- wp_wf (Wp_ofD ?d ?q) => apply (wp_wf_ofD d q I I) end;
    first [discriminate | intros; reflexivity].
Qed.
Lemma table_qualified_wf :
  Forall (fun e : string * WeatherPhenomena => wp_wf (snd e)) wp_table_qualified.
Proof.
  repeat (apply Forall_cons; [cbn [snd]|]); try apply Forall_nil;
    lazymatch goal with
    | |- wp_wf (Wp_of1 ?w ?d ?q) => apply (wp_wf_of1 w d q I I I)
    | |- wp_wf (Wp_of2 ?v ?w ?d ?q) => apply (wp_wf_of2 v w d q I I I I)
    | |- wp_wf (Wp_ofD ?d ?q) => apply (wp_wf_ofD d q I I) end;
    first [discriminate | intros; reflexivity].
Qed.

Lemma ok_qualifier_prefix : forall s b, (2 <= slen s)%nat ->
  ok (wp_qualifier_prefix s b) (fun r => proper_q (fst r)).
Proof.
  intros s b L; unfold wp_qualifier_prefix; ok_auto; cbn; auto.
Qed.

Lemma ok_precip_loop : forall n st,
  Forall proper_w (ps_weather st) ->
  (exists m, slen (ps_str st) = 2 * m)%nat ->
  (ps_fz st = true -> existsb can_freeze (ps_weather st) = true) ->
  (n + List.length (ps_weather st) <= 3)%nat ->
  ok (wp_precip_loop n st) (fun o => forall r, o = Some r ->
    Forall proper_w (ps_weather r) /\ (List.length (ps_weather r) <= 3)%nat
    /\ (ps_fz r = true -> existsb can_freeze (ps_weather r) = true)).
Proof.
  induction n as [|n IH]; intros st Hw Hev Hfz Hn; cbn [wp_precip_loop].
  - cbn [ok]; intros r H; inv H; repeat split; auto; lia.
  - destruct (sempty (ps_str st)) eqn:E.
    + cbn [ok]; intros r H; inv H; repeat split; auto; lia.
    + apply sempty_false in E.
      assert (2 <= slen (ps_str st))%nat as L.
      { destruct Hev as [m Hm]; destruct (ps_str st); [congruence|]; slia. }
      apply ok_bind, ok_substr; [lia|].
      destruct (lookup _ wp_table_precip) as [w|] eqn:Lk; [|cbn; discriminate].
      assert (proper_w w) as Pw.
      { refine (lookup_forall _ proper_w _ _ _ Lk _); repeat constructor. }
      match goal with |- context [if ?b then _ else _] => destruct b end; [cbn; discriminate|].
      apply ok_bind, ok_substr_from; [lia|]; rewrite substring_from.
      apply IH; cbn [ps_weather ps_str ps_fz].
      * apply Forall_app; auto.
      * destruct Hev as [m Hm]; exists (m - 1)%nat; rewrite sdrop_len; lia.
      * rewrite existsb_app; intros H; apply orb_prop in H; apply orb_true_intro.
        destruct H as [H|H]; [right | left; auto].
        destruct w; try discriminate; reflexivity.
      * rewrite app_length; cbn [List.length]; lia.
Qed.

Lemma ok_fromPrecipString : forall s b,
  ok (Wp_fromPrecipString s b) (fun o => forall p, o = Some p -> wp_wf p).
Proof.
  intros s b; unfold Wp_fromPrecipString.
  destruct (Nat.ltb_spec (slen s) 2) as [L|L]; [cbn; discriminate|].
  apply ok_bind; eapply ok_mono; [apply ok_qualifier_prefix; exact L|].
  intros [q t] Pq; cbn [fst snd] in *.
  destruct (Nat.ltb_spec (slen t) 2) as [L'|L']; [cbn; discriminate|].
  apply ok_bind, ok_substr; [lia|].
  set (d := if seqb _ "FZ" then _ else _).
  assert (proper_d d) as Pd.
  { unfold d; repeat match goal with |- context [if ?c then _ else _] => destruct c end; exact I. }
  clearbody d; cbv zeta.
  apply ok_bind.
  eapply (ok_mono _ _ (fun _ => True)).
  { destruct (negb _); [apply ok_substr_from; [lia|exact I] | exact I]. }
  intros u _; destruct (Nat.ltb (slen u) 2 || Nat.odd (slen u)) eqn:E; [cbn; discriminate|].
  b2p; destruct E as [_ E].
  assert (exists m, slen u = 2 * m)%nat as Ev.
  { rewrite <- Nat.negb_even in E; apply negb_false_iff, Nat.even_spec in E.
    destruct E as [m E]; exists m; exact E. }
  apply ok_bind; eapply ok_mono.
  { apply (ok_precip_loop 3 (mkPrecipSt u [] false false)); cbn; auto; discriminate. }
  intros [st|] H; [|cbn; discriminate].
  destruct (H st eq_refl) as (Pw & Len & Fz).
  destruct (negb (sempty _)); [cbn; discriminate|].
  destruct (negb (ps_sh st) && _); [cbn; discriminate|].
  destruct (negb (ps_fz st) && _) eqn:Efz; [cbn; discriminate|].
  destruct (packv_shows q d (ps_weather st) Ev_NONE None Pq Pd Pw I) as (x & Hx & S).
  rewrite Hx; cbn; intros p Hp; inv Hp.
  exists q, d, (firstn 3 (ps_weather st)), Ev_NONE; split; [exact S|].
  rewrite firstn_all2 by exact Len.
  repeat split; auto.
  intros ->; apply Fz; destruct (ps_fz st); [reflexivity|]; discriminate.
Qed.

Lemma ok_Wp_fromString : forall s b,
  ok (Wp_fromString s b) (fun o => forall p, o = Some p -> wp_wf p).
Proof.
  intros s b; unfold Wp_fromString.
  destruct (lookup s wp_table_plain) as [w|] eqn:E.
  - cbn; intros p H; inv H; exact (lookup_forall _ wp_wf _ _ _ E table_plain_wf).
  - destruct (if b then _ else _) as [w|] eqn:E2; [|apply ok_fromPrecipString].
    destruct b; [|discriminate].
    cbn; intros p H; inv H; exact (lookup_forall _ wp_wf _ _ _ E2 table_qualified_wf).
Qed.

Lemma stoi_two : forall r s m n a, regex_match r s = Some m -> bodies r n = [a] ->
  must r n = true -> (0 < minlen a)%nat ->
  (match maxlen a with Some k => Nat.leb k 9 | None => false end) = true ->
  cls_all is_digit a = true -> ok (stoi (mstr m n)) (fun v => decimal (mstr m n) = Some v).
Proof.
  intros r s m n a H B M Mi Ma C.
  pose proof (mstr_must _ _ _ _ _ H M B) as L.
  pose proof (lang_minlen _ _ L).
  destruct (maxlen a) as [k|] eqn:Ek; [|discriminate].
  pose proof (lang_maxlen _ _ L _ Ek).
  apply ok_stoi.
  - intros E; rewrite E in *; cbn in *; slia.
  - rewrite all_digits_str_all; exact (lang_cls_all _ _ _ L C).
  - b2p; apply Nat.leb_le in Ma; lia.
Qed.
Lemma stoi_opt : forall r s m n a, regex_match r s = Some m -> bodies r n = [a] ->
  (match maxlen a with Some k => Nat.leb k 9 | None => false end) = true ->
  cls_all is_digit a = true -> mstr m n <> "" ->
  ok (stoi (mstr m n)) (fun v => decimal (mstr m n) = Some v).
Proof.
  intros r s m n a H B Ma C NE.
  destruct (mstr_may _ _ _ _ _ H B) as [L|L]; [contradiction|].
  destruct (maxlen a) as [k|] eqn:Ek; [|discriminate].
  pose proof (lang_maxlen _ _ L _ Ek).
  apply ok_stoi.
  - exact NE.
  - rewrite all_digits_str_all; exact (lang_cls_all _ _ _ L C).
  - b2p; apply Nat.leb_le in Ma; lia.
Qed.

Lemma begin_end_capture : forall s m, regex_match rgx_begin_end s = Some m ->
  mstr m 2 = "B" \/ mstr m 2 = "E".
Proof.
  intros s m H.
  assert (L : Lang (RCls [("B"%char, "B"%char); ("E"%char, "E"%char)]) (mstr m 2)).
  { eapply mstr_must; [exact H| |]; vm_compute; reflexivity. }
  eapply lang_words_all with (P := fun x => seqb x "B" || seqb x "E") in L;
    [|vm_compute; reflexivity].
  apply orb_prop in L; destruct L as [L|L]; apply seqb_eq in L; auto.
Qed.

Lemma ok_fromWeatherBeginEndString : forall s t prev, wp_wf prev ->
  ok (Wp_fromWeatherBeginEndString s t prev) (fun o => forall p, o = Some p -> wp_wf p).
Proof.
  intros s t prev Wf; unfold Wp_fromWeatherBeginEndString.
  destruct (regex_match rgx_begin_end s) as [m|] eqn:R; [|cbn; discriminate].
  apply ok_bind.
  eapply (ok_mono _ _ (fun o : option WeatherPhenomena => forall p, o = Some p -> wp_wf p)).
  { destruct (negb (sempty (mstr m 1))); [apply ok_Wp_fromString|].
    apply ok_bind; eapply ok_mono; [apply wp_isValid_ok; exact Wf|].
    intros v _; destruct (negb v); cbn; [discriminate|]; intros p H; inv H; exact Wf. }
  intros [r|] Hr; [|cbn; discriminate].
  destruct (Hr r eq_refl) as (q & d & w & e & (Sq & Sd & Sw & Se) & Pq & Pd & Pw & Pe & Len & F).
  apply ok_bind.
  eapply (ok_mono _ _ proper_e).
  { destruct (begin_end_capture _ _ R) as [-> | ->]; exact I. }
  intros ev Pev; apply ok_bind.
  rewrite Sq, Sd, Sw.
  destruct (packv_shows q d w ev None Pq Pd Pw Pev) as (x & Hx & _).
  rewrite Hx; cbn [ok].
  apply ok_bind; eapply ok_mono.
  { eapply (stoi_two rgx_begin_end); [exact R|..]; try (vm_compute; reflexivity); vm_compute; lia. }
  intros mi _; cbv zeta; apply ok_bind.
  eapply (ok_mono _ _ (fun _ => True)).
  { destruct (sempty (mstr m 3)) eqn:E3; cbn [negb]; [exact I|].
    eapply ok_true, (stoi_opt rgx_begin_end); [exact R|..]; try (vm_compute; reflexivity).
    apply sempty_false; exact E3. }
  intros h _; cbn; intros p Hp; injection Hp as <-.
  destruct (packv_shows q d w ev (Some (mkTime None h mi)) Pq Pd Pw Pev) as (x' & Hx' & S').
  rewrite Hx in Hx'; injection Hx' as <-.
  exists q, d, (firstn 3 w), ev; split; [exact S'|].
  rewrite firstn_all2 by exact Len; repeat split; auto.
Qed.

Lemma ok_CloudType_fromString : forall s, ok (CloudType_fromString s) (fun _ => True).
Proof.
  intros s; unfold CloudType_fromString; ok_auto.
Qed.
#[global] Hint Resolve ok_CloudType_fromString : okdb.
