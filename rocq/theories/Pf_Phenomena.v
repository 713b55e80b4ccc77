(** What the weather phenomena parser accepts and what it returns. *)
From Coq Require Import Lia.
From Verif Require Import Prim Lib Regex Float Values Weather SpecWeather SpecPhenomena Pf_Weather.
Local Open Scope string_scope.

Lemma sapp_assoc : forall a b c : string, a ++ b ++ c = (a ++ b) ++ c.
Proof. induction a as [|x a IH]; intros b c; cbn; [reflexivity|]. rewrite IH. reflexivity. Qed.
Lemma sapp_nil_r : forall a : string, a ++ "" = a.
Proof. induction a as [|x a IH]; cbn; [reflexivity|]. rewrite IH. reflexivity. Qed.
Lemma substring0_more : forall n s, slen s <= n -> substring 0 n s = s.
Proof. unfold slen; induction n as [|n IH]; intros [|c s] L; cbn [substring String.length] in *; try reflexivity; [lia|]. rewrite IH by lia. reflexivity. Qed.
Lemma split2 : forall s a b, substr s 0 2 = Ok a -> substr_from s 2 = Ok b -> s = a ++ b.
Proof.
  intros s a b A B. unfold substr_from, substr in *. cbn [Nat.leb] in A. injection A as <-.
  destruct (Nat.leb_spec 2 (slen s)) as [L|]; [|discriminate]. injection B as <-.
  rewrite (substring_sdrop 2), (substring0_more _ (sdrop 2 s)) by (rewrite sdrop_len; lia). symmetry. apply substring0_sdrop_app.
Qed.
Lemma letters_app : forall a b, all_letters (a ++ b)%list = (all_letters a ++ all_letters b)%string.
Proof. induction a as [|w a IH]; intros b; [reflexivity|]. cbn [app all_letters]. rewrite IH. apply sapp_assoc. Qed.

Lemma precip_lookup : forall s w, lookup s wp_table_precip = Some w -> s = weather_letters w /\ In w precipitation.
Proof.
  intros s w H. apply lookup_in in H. cbn in H.
  repeat (destruct H as [H|H]; [injection H as <- <-; split; [reflexivity|cbn; tauto]|]). contradiction.
Qed.
Lemma showery_spec : forall w, Wp_isDescriptorShAllowed w = true <-> In w showery.
Proof. intros w; split; [destruct w; try discriminate; intros _; cbn; tauto|].
  intros H; cbn in H; repeat (destruct H as [<- |H]; [reflexivity|]); contradiction. Qed.
Lemma freezes_spec : forall w, Wp_isDescriptorFzAllowed w = true <-> In w freezing_kinds.
Proof. intros w; split; [destruct w; try discriminate; intros _; cbn; tauto|].
  intros H; cbn in H; repeat (destruct H as [<- |H]; [reflexivity|]); contradiction. Qed.

Lemma NoDup_app_snoc : forall (A : Type) (l : list A) (x : A), NoDup l -> ~ In x l -> NoDup (l ++ [x]).
Proof.
  intros A l x N H. apply NoDup_rev in N. rewrite <- (rev_involutive (l ++ [x])). apply NoDup_rev.
  rewrite rev_app_distr. cbn. constructor; [|exact N]. rewrite <- in_rev. exact H.
Qed.
Lemma wbeq : forall a b, WpWeather_beq a b = true -> a = b.
Proof. intros a b; apply internal_WpWeather_dec_bl. Qed.
Lemma wbeq_refl : forall a, WpWeather_beq a a = true.
Proof. intros a; apply internal_WpWeather_dec_lb; reflexivity. Qed.

Record loop_inv (s0 : string) (st : PrecipSt) : Prop := mk_li
  { li_text : s0 = all_letters (ps_weather st) ++ ps_str st;
    li_nodup : NoDup (ps_weather st);
    li_kind : Forall (fun w => In w precipitation) (ps_weather st);
    li_sh : ps_sh st = true -> Exists (fun w => In w showery) (ps_weather st);
    li_fz : ps_fz st = true -> Exists (fun w => In w freezing_kinds) (ps_weather st) }.
Lemma precip_loop_inv : forall n s0 st st', loop_inv s0 st -> wp_precip_loop n st = Ok (Some st') ->
  loop_inv s0 st' /\ List.length (ps_weather st') <= List.length (ps_weather st) + n.
Proof.
  induction n as [|n IH]; intros s0 st st' I H; cbn [wp_precip_loop] in H.
  - injection H as <-. split; [exact I|lia].
  - destruct (sempty (ps_str st)) eqn:E; [injection H as <-; split; [exact I|lia]|].
    apply bind_ok in H. destruct H as (ws & Hs & H).
    destruct (lookup ws wp_table_precip) as [w|] eqn:L; [|discriminate].
    apply precip_lookup in L. destruct L as [-> Kw].
    destruct (existsb (fun x => WpWeather_beq x w) (ps_weather st)) eqn:D; [discriminate|].
    apply bind_ok in H. destruct H as (rest & Hr & H).
    destruct I as [T N K Sh Fz].
    apply (IH s0) in H.
    + destruct H as [H1 H2]. split; [exact H1|]. cbn [ps_weather] in H2. rewrite app_length in H2. cbn in H2. lia.
    + constructor; cbn [ps_weather ps_str ps_sh ps_fz].
      * rewrite letters_app. cbn [all_letters]. rewrite sapp_nil_r, <- sapp_assoc, <- (split2 _ _ _ Hs Hr). exact T.
      * apply NoDup_app_snoc; [exact N|]. intros X. assert (C : existsb (fun x => WpWeather_beq x w) (ps_weather st) = true).
        { apply existsb_exists. exists w. split; [exact X|apply wbeq_refl]. } congruence.
      * apply Forall_app. split; [exact K|]. constructor; [exact Kw|constructor].
      * intros O. apply orb_prop in O. apply Exists_app. destruct O as [O|O]; [right; constructor; apply showery_spec; exact O|left; auto].
      * intros O. apply orb_prop in O. apply Exists_app. destruct O as [O|O]; [right; constructor; apply freezes_spec; exact O|left; auto].
Qed.

Lemma shows_packv : forall q d ws e x tm, proper_q q -> proper_d d -> Forall proper_w ws -> proper_e e ->
  List.length ws <= 3 -> Wp_packv q d ws e = Ok x -> shows (mkWp x tm) q d ws e.
Proof.
  intros q d ws e x tm Pq Pd Pw Pe L H. destruct (packv_shows q d ws e tm Pq Pd Pw Pe) as (y & Hy & S).
  rewrite H in Hy. injection Hy as <-. rewrite firstn_all2 in S by lia. exact S.
Qed.
Lemma precipitation_proper : forall ws, Forall (fun w => In w precipitation) ws -> Forall proper_w ws.
Proof.
  intros ws H. eapply Forall_impl; [|exact H]. intros w K. cbn in K.
  repeat (destruct K as [<- |K]; [exact I|]). contradiction.
Qed.

Lemma sempty_eq : forall s, sempty s = true -> s = "".
Proof. intros [|c s]; [reflexivity|discriminate]. Qed.
Lemma substr_app : forall s n r, substr_from s n = Ok r -> s = substring 0 n s ++ r.
Proof.
  intros s n r H. unfold substr_from, substr in H. destruct (Nat.leb_spec n (slen s)) as [L|]; [|discriminate].
  injection H as <-. rewrite (substring_sdrop n (slen s)), (substring0_more _ (sdrop n s)) by (rewrite sdrop_len; lia). symmetry. apply substring0_sdrop_app.
Qed.
Lemma qualifier_text : forall s b q r, wp_qualifier_prefix s b = Ok (q, r) ->
  s = qualifier_letters q ++ r /\ In q (if b then [Q_LIGHT; Q_MODERATE; Q_HEAVY; Q_RECENT] else [Q_NONE]).
Proof.
  intros s b q r H. unfold wp_qualifier_prefix in H. destruct b; cbn [negb] in H.
  2: { injection H as <- <-. split; [reflexivity|left; reflexivity]. }
  apply bind_ok in H. destruct H as (c0 & G & H).
  destruct s as [|c s].
  { cbn in G. injection G as <-. cbn in H. injection H as <- <-. split; [reflexivity|cbn; tauto]. }
  cbn in G. injection G as <-.
  destruct (Ascii.eqb_spec c "+") as [-> |N1].
  { apply bind_ok in H. destruct H as (t & Ht & H). injection H as <- <-. apply substr_app in Ht.
    split; [|cbn; tauto]. rewrite Ht at 1. cbn. destruct s; reflexivity. }
  destruct (Ascii.eqb_spec c "-") as [-> |N2].
  { apply bind_ok in H. destruct H as (t & Ht & H). injection H as <- <-. apply substr_app in Ht.
    split; [|cbn; tauto]. rewrite Ht at 1. cbn. destruct s; reflexivity. }
  destruct (Ascii.eqb_spec c "R") as [-> |N3].
  2: { injection H as <- <-. split; [reflexivity|cbn; tauto]. }
  apply bind_ok in H. destruct H as (c1 & G & H). destruct (Ascii.eqb_spec c1 "E") as [-> |N4].
  2: { injection H as <- <-. split; [reflexivity|cbn; tauto]. }
  apply bind_ok in H. destruct H as (t & Ht & H). injection H as <- <-. apply substr_app in Ht.
  split; [|cbn; tauto]. rewrite Ht at 1. destruct s as [|c s]; [discriminate|]. cbn in G. injection G as ->.
  cbn. destruct s; reflexivity.
Qed.

Lemma precip_sound : forall s b p, Wp_fromPrecipString s b = Ok (Some p) ->
  exists q d ws, recognised b q d ws /\ s = written q d ws /\ shows p q d ws Ev_NONE /\ wpTm p = None.
Proof.
  intros s b p H. unfold Wp_fromPrecipString in H.
  destruct (Nat.ltb (slen s) 2); [discriminate|].
  apply bind_ok in H. destruct H as ((q & r) & Hq & H). cbn [fst snd] in H.
  apply qualifier_text in Hq. destruct Hq as [Es Kq].
  destruct (Nat.ltb (slen r) 2); [discriminate|].
  apply bind_ok in H. destruct H as (pre & Hp & H). unfold substr in Hp. cbn [Nat.leb] in Hp. injection Hp as <-.
  set (d := if seqb (substring 0 2 r) "FZ" then _ else _) in H.
  apply bind_ok in H. destruct H as (r' & Hr & H).
  assert (T : r = descriptor_letters d ++ r' /\ In d [D_NONE; D_SHOWERS; D_THUNDERSTORM; D_FREEZING]).
  { subst d. destruct (seqb (substring 0 2 r) "FZ") eqn:E1.
    { apply seqb_eq in E1. cbn [negb WpDescriptor_beq] in Hr. apply substr_app in Hr. rewrite E1 in Hr. split; [exact Hr|cbn; tauto]. }
    destruct (seqb (substring 0 2 r) "TS") eqn:E2.
    { apply seqb_eq in E2. cbn [negb WpDescriptor_beq] in Hr. apply substr_app in Hr. rewrite E2 in Hr. split; [exact Hr|cbn; tauto]. }
    destruct (seqb (substring 0 2 r) "SH") eqn:E3.
    { apply seqb_eq in E3. cbn [negb WpDescriptor_beq] in Hr. apply substr_app in Hr. rewrite E3 in Hr. split; [exact Hr|cbn; tauto]. }
    cbn [negb WpDescriptor_beq] in Hr. injection Hr as <-. split; [reflexivity|cbn; tauto]. }
  clearbody d. destruct T as [Er Kd]. clear Hr.
  destruct (Nat.ltb (slen r') 2 || Nat.odd (slen r')) eqn:L2; [discriminate|].
  apply orb_false_elim in L2. destruct L2 as [L2 _]. apply Nat.ltb_ge in L2.
  apply bind_ok in H. destruct H as (o & Hl & H). destruct o as [st|]; [|discriminate].
  apply (precip_loop_inv 3 r') in Hl.
  2: { constructor; cbn; [reflexivity|constructor|constructor|discriminate|discriminate]. }
  destruct Hl as [[T N K Sh Fz] Ln]. cbn in Ln.
  destruct (sempty (ps_str st)) eqn:E; [|discriminate]. apply sempty_eq in E. rewrite E, sapp_nil_r in T. cbn [negb] in H.
  destruct (negb (ps_sh st) && WpDescriptor_beq d D_SHOWERS) eqn:C1; [discriminate|].
  destruct (negb (ps_fz st) && WpDescriptor_beq d D_FREEZING) eqn:C2; [discriminate|].
  apply bind_ok in H. destruct H as (x & Hx & H). injection H as <-.
  exists q, d, (ps_weather st).
  split.
  - apply rec_precipitation; auto.
    + intros Z. rewrite Z in T. subst r'. cbn in L2. lia.
    + intros ->. apply Sh. destruct (ps_sh st); [reflexivity|discriminate].
    + intros ->. apply Fz. destruct (ps_fz st); [reflexivity|discriminate].
  - split; [unfold written; rewrite Es, Er, T; reflexivity|]. split; [|reflexivity].
    apply shows_packv; auto.
    + destruct b; cbn in Kq; repeat (destruct Kq as [<- |Kq]; [exact I|]); contradiction.
    + cbn in Kd. repeat (destruct Kd as [<- |Kd]; [exact I|]); contradiction.
    + apply precipitation_proper. exact K.
    + exact I.
Qed.

(** *** The tables *)
Definition list_beq (a b : list WpWeather) : bool := if list_eq_dec WpWeather_eq_dec a b then true else false.
Definition shows_b (p : WeatherPhenomena) (q : WpQualifier) (d : WpDescriptor) (ws : list WpWeather) : bool :=
  WpQualifier_beq (Wp_qualifier p) q && WpDescriptor_beq (Wp_descriptor p) d && list_beq (Wp_weather p) ws
  && WpEvent_beq (Wp_event p) Ev_NONE && match wpTm p with None => true | Some _ => false end.
Lemma shows_b_ok : forall p q d ws, shows_b p q d ws = true -> shows p q d ws Ev_NONE /\ wpTm p = None.
Proof.
  intros p q d ws H. unfold shows_b in H. repeat (apply andb_prop in H; destruct H as [H ?]).
  apply internal_WpQualifier_dec_bl in H. apply internal_WpDescriptor_dec_bl in H3.
  apply internal_WpEvent_dec_bl in H1. unfold list_beq in H2. destruct (list_eq_dec _ _ _); [|discriminate].
  destruct (wpTm p); [discriminate|]. repeat split; assumption.
Qed.
Definition entry_ok (l : list (WpQualifier * WpDescriptor * list WpWeather)) (e : string * WeatherPhenomena) : bool :=
  existsb (fun x => let '(q, d, ws) := x in seqb (fst e) (written q d ws) && shows_b (snd e) q d ws) l.
Definition plain_combinations : list (WpQualifier * WpDescriptor * list WpWeather) :=
  map (fun x => (Q_NONE, fst x, snd x)) obscurations.
Definition qualified_combinations : list (WpQualifier * WpDescriptor * list WpWeather) :=
  (map (fun x => (Q_VICINITY, fst x, snd x)) in_vicinity
   ++ map (fun x => (Q_HEAVY, D_NONE, x)) heavy_only ++ [(Q_RECENT, D_THUNDERSTORM, [])])%list.
Lemma plain_table : forallb (entry_ok plain_combinations) wp_table_plain = true.
Proof. vm_compute. reflexivity. Qed.
Lemma qualified_table : forallb (entry_ok qualified_combinations) wp_table_qualified = true.
Proof. vm_compute. reflexivity. Qed.
Lemma table_sound : forall l t s p, forallb (entry_ok l) t = true -> lookup s t = Some p ->
  exists q d ws, In (q, d, ws) l /\ s = written q d ws /\ shows p q d ws Ev_NONE /\ wpTm p = None.
Proof.
  intros l t s p F H. apply lookup_in in H. rewrite forallb_forall in F. apply F in H.
  apply existsb_exists in H. destruct H as (((q & d) & ws) & I & H). apply andb_prop in H. destruct H as [H1 H2].
  apply seqb_eq in H1. apply shows_b_ok in H2. exists q, d, ws. cbn [fst snd] in *. destruct H2. auto.
Qed.

Lemma weather_sound : forall s b p, Wp_fromString s b = Ok (Some p) ->
  exists q d ws, recognised b q d ws /\ s = written q d ws /\ shows p q d ws Ev_NONE /\ wpTm p = None.
Proof.
  intros s b p H. unfold Wp_fromString in H. destruct (lookup s wp_table_plain) as [x|] eqn:E1.
  { injection H as ->. destruct (table_sound _ _ _ _ plain_table E1) as (q & d & ws & I & T & S).
    exists q, d, ws. split; [|auto]. unfold plain_combinations in I. apply in_map_iff in I.
    destruct I as ((d' & ws') & I & J). cbn in I. injection I as <- <- <-. apply rec_obscuration. exact J. }
  destruct (if b then lookup s wp_table_qualified else None) as [x|] eqn:E2.
  { injection H as ->. destruct b; [|discriminate].
    destruct (table_sound _ _ _ _ qualified_table E2) as (q & d & ws & I & T & S).
    exists q, d, ws. split; [|auto]. unfold qualified_combinations in I. apply in_app_or in I.
    destruct I as [I|I].
    - apply in_map_iff in I. destruct I as ((d' & ws') & I & J). cbn in I. injection I as <- <- <-. apply rec_vicinity. exact J.
    - apply in_app_or in I. destruct I as [I|[I|[]]].
      + apply in_map_iff in I. destruct I as (ws' & I & J). injection I as <- <- <-. apply rec_heavy. exact J.
      + injection I as <- <- <-. apply rec_recent_thunderstorm. }
  apply precip_sound. exact H.
Qed.

(** *** All of them are accepted *)
Definition accepts (b : bool) (x : WpQualifier * WpDescriptor * list WpWeather) : bool :=
  let '(q, d, ws) := x in
  match Wp_fromString (written q d ws) b with Ok (Some p) => shows_b p q d ws | _ => false end.
Fixpoint nodup_b (ws : list WpWeather) : bool :=
  match ws with [] => true | w :: ws' => negb (existsb (WpWeather_beq w) ws') && nodup_b ws' end.
Definition precip_lists : list (list WpWeather) :=
  (map (fun a => [a]) precipitation
   ++ flat_map (fun a => map (fun b => [a; b]) precipitation) precipitation
   ++ flat_map (fun a => flat_map (fun b => map (fun c => [a; b; c]) precipitation) precipitation) precipitation)%list.
Definition precip_ok (b : bool) (q : WpQualifier) (d : WpDescriptor) (ws : list WpWeather) : bool :=
  negb (nodup_b ws)
  || WpDescriptor_beq d D_SHOWERS && negb (existsb Wp_isDescriptorShAllowed ws)
  || WpDescriptor_beq d D_FREEZING && negb (existsb Wp_isDescriptorFzAllowed ws)
  || accepts b (q, d, ws).
Lemma precip_all : forallb (fun b => forallb (fun q => forallb (fun d => forallb (precip_ok b q d) precip_lists)
     [D_NONE; D_SHOWERS; D_THUNDERSTORM; D_FREEZING]) (if b then [Q_LIGHT; Q_MODERATE; Q_HEAVY; Q_RECENT] else [Q_NONE]))
   [true; false] = true.
Proof. vm_compute. reflexivity. Qed.
Lemma tables_all : forallb (accepts true) (plain_combinations ++ qualified_combinations) && forallb (accepts false) plain_combinations = true.
Proof. vm_compute. reflexivity. Qed.
Lemma precip_lists_all : forall ws, ws <> [] -> List.length ws <= 3 -> Forall (fun w => In w precipitation) ws -> In ws precip_lists.
Proof.
  intros ws N L F. unfold precip_lists. destruct ws as [|a [|b [|c [|d ws]]]]; [contradiction| | | |cbn in L; lia];
    repeat match goal with H : Forall _ (_ :: _) |- _ => inversion H; clear H; subst end.
  - apply in_or_app. left. apply in_map_iff. eauto.
  - apply in_or_app. right. apply in_or_app. left. apply in_flat_map. exists a. split; [assumption|]. apply in_map_iff. eauto.
  - apply in_or_app. right. apply in_or_app. right. apply in_flat_map. exists a. split; [assumption|].
    apply in_flat_map. exists b. split; [assumption|]. apply in_map_iff. eauto.
Qed.
Lemma nodup_b_ok : forall ws, NoDup ws -> nodup_b ws = true.
Proof.
  induction ws as [|w ws IH]; intros H; [reflexivity|]. inversion H as [|? ? A B]; subst. cbn. rewrite IH by exact B.
  destruct (existsb (WpWeather_beq w) ws) eqn:E; [|reflexivity]. apply existsb_exists in E.
  destruct E as (x & X & Y). apply wbeq in Y. subst. contradiction.
Qed.
Lemma weather_complete : forall b q d ws, recognised b q d ws ->
  exists p, Wp_fromString (written q d ws) b = Ok (Some p) /\ shows p q d ws Ev_NONE /\ wpTm p = None.
Proof.
  assert (A : forall b q d ws, accepts b (q, d, ws) = true ->
    exists p, Wp_fromString (written q d ws) b = Ok (Some p) /\ shows p q d ws Ev_NONE /\ wpTm p = None).
  { intros b q d ws H. unfold accepts in H. destruct (Wp_fromString (written q d ws) b) as [[p|]|]; try discriminate.
    exists p. apply shows_b_ok in H. tauto. }
  pose proof tables_all as T. apply andb_prop in T. destruct T as [T1 T2]. rewrite forallb_forall in T1, T2.
  intros b q d ws R. apply A. destruct R as [b q d ws Kq Kd N L U K Sh Fz|b d ws I|d ws I|ws I|].
  - pose proof precip_all as P. rewrite forallb_forall in P. specialize (P b). rewrite forallb_forall in P.
    assert (Ib : In b [true; false]) by (destruct b; cbn; tauto).
    specialize (P Ib q Kq). rewrite forallb_forall in P. specialize (P d Kd). rewrite forallb_forall in P.
    specialize (P ws (precip_lists_all ws N L K)). unfold precip_ok in P. rewrite (nodup_b_ok ws U) in P. cbn [negb orb] in P.
    apply orb_prop in P. destruct P as [P|P]; [|exact P]. exfalso. apply orb_prop in P.
    destruct P as [P|P]; apply andb_prop in P; destruct P as [P1 P2]; apply internal_WpDescriptor_dec_bl in P1.
    + specialize (Sh P1). apply Exists_exists in Sh. destruct Sh as (w & W1 & W2). apply showery_spec in W2.
      assert (existsb Wp_isDescriptorShAllowed ws = true) by (apply existsb_exists; eauto). rewrite H in P2. discriminate.
    + specialize (Fz P1). apply Exists_exists in Fz. destruct Fz as (w & W1 & W2). apply freezes_spec in W2.
      assert (existsb Wp_isDescriptorFzAllowed ws = true) by (apply existsb_exists; eauto). rewrite H in P2. discriminate.
  - assert (J : In (Q_NONE, d, ws) plain_combinations) by (apply in_map_iff; exists (d, ws); auto).
    destruct b; [apply T1, in_or_app; left; exact J|apply T2; exact J].
  - apply T1, in_or_app; right. apply in_or_app; left. apply in_map_iff. exists (d, ws). auto.
  - apply T1, in_or_app; right. apply in_or_app; right. apply in_or_app; left. apply in_map_iff. eauto.
  - apply T1, in_or_app; right. apply in_or_app; right. apply in_or_app; right. left. reflexivity.
Qed.
Lemma recognised_shape : forall b q d ws, recognised b q d ws -> List.length ws <= 3 /\ NoDup ws.
Proof.
  intros b q d ws R. destruct R as [b q d ws Kq Kd N L U K Sh Fz|b d ws I|d ws I|ws I|]; [auto| | | |split; [cbn; lia|constructor]];
    cbn in I; repeat (destruct I as [I|I]; [first [injection I as <- <- | subst ws]; split; [cbn; lia|];
      repeat constructor; cbn; intuition discriminate|]); contradiction.
Qed.
