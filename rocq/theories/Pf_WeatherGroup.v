(** C58: the words of a weather group, in both directions. *)
From Coq Require Import Lia ZifyBool ZifyN ZifyNat.
From Verif Require Import Prim Lib Regex Float Values Weather Groups1 Groups2 Groups3 Groups4 Parser SpecRegex SpecTokens SpecReads SpecText SpecForm
  SpecReach SpecBuilt SpecAssembled SpecAppend SpecDecimal SpecNumeral SpecWeather SpecPhenomena SpecWeatherGroup.
From Verif Require Import Pf_Ok Pf_Caps Pf_Regex Pf_Kinds Pf_Decimal Pf_Numeral Pf_Shapes Pf_Decode Pf_Layout Pf_Weather Pf_Phenomena Pf_Events Pf_WeatherWords
  Pf_Assembled Pf_Grown Pf_Waits Pf_Visibility Pf_WindWords.
Local Open Scope string_scope.

(** ** One event *)
Definition re_pair : re := Eval vm_compute in rx "[A-Z][A-Z]".
Definition re_name : re := Eval vm_compute in rx "(?:[A-Z][A-Z]){0,4}".
Lemma opt_more : forall r a b, Lang re_pair a -> Lang r b -> Lang (ROpt (RSeq re_pair r)) (a ++ b).
Proof. intros r a b A B. apply L_opt1. apply L_seq; assumption. Qed.
Lemma name_lang : forall l, (List.length l <= 4)%nat -> Forall (Lang re_pair) l -> Lang re_name (concatenated l).
Proof.
  intros l L F. change re_name with (ROpt (RSeq re_pair (ROpt (RSeq re_pair (ROpt (RSeq re_pair (ROpt re_pair))))))).
  destruct F as [|a l A F]; [apply L_opt0|]. apply opt_more; [exact A|].
  destruct F as [|b l B F]; [apply L_opt0|]. apply opt_more; [exact B|].
  destruct F as [|c l C F]; [apply L_opt0|]. apply opt_more; [exact C|].
  destruct F as [|d l D F]; [apply L_opt0|]. destruct F as [|e l E F]; [|cbn in L; lia].
  cbn [concatenated fold_right]. rewrite sapp_nil_r. apply L_opt1. exact D.
Qed.
Lemma written_name : forall q d ws, recognised false q d ws -> q = Q_NONE /\ Lang re_name (written q d ws) /\ written q d ws <> "".
Proof.
  assert (Pl : forall ws, Forall (fun w => In w precipitation) ws -> Forall (Lang re_pair) (map weather_letters ws)).
  { intros ws F. induction F as [|w ws I F IH]; [constructor|]. cbn [map]. constructor; [|exact IH].
    cbn in I. repeat (destruct I as [<- |I]; [apply closed_lang; reflexivity|]). destruct I. }
  assert (Al : forall ws, all_letters ws = concatenated (map weather_letters ws)) by (induction ws as [|w ws IH]; [reflexivity|cbn; rewrite IH; reflexivity]).
  intros q d ws R. remember false as b eqn:Eb. destruct R as [b q d ws Kq Kd N L U K Sh Fz|b d ws I|d ws I|ws I|]; try discriminate Eb; subst b.
  - destruct Kq as [<- |[]]. split; [reflexivity|].
    assert (X : written Q_NONE d ws <> "").
    { unfold written. destruct ws as [|w ws]; [contradiction|]. inversion K; subst. cbn in Kd, H1.
      repeat (destruct Kd as [<- |Kd]; [|]); try contradiction; cbn [qualifier_letters descriptor_letters append]; try discriminate; cbn [all_letters];
      repeat (destruct H1 as [<- |H1]; [discriminate|]); contradiction. }
    split; [|exact X]. unfold written. cbn [qualifier_letters append]. rewrite Al.
    destruct (descriptor_letters d) as [|c r] eqn:D.
    + apply name_lang; [rewrite map_length; lia|]. apply Pl. exact K.
    + rewrite <- D. apply (name_lang (descriptor_letters d :: map weather_letters ws)); [cbn [List.length]; rewrite map_length; lia|].
      constructor; [|apply Pl; exact K]. cbn in Kd. repeat (destruct Kd as [<- |Kd]; [first [discriminate D|apply closed_lang; reflexivity]|]). contradiction.
  - split; [reflexivity|]. cbn in I. repeat (destruct I as [I|I]; [injection I as <- <-; split; [apply closed_lang; reflexivity|discriminate]|]). contradiction.
Qed.

Definition hour_piece (h : string) : caps := if sempty h then [] else [(3%nat, h)].
Lemma begin_end_match : forall name e h m hv mv, Lang re_name name -> (e = Ev_BEGINNING \/ e = Ev_ENDING) ->
  h = "" \/ numeral 2 h hv -> numeral 2 m mv ->
  regex_match rgx_begin_end (name ++ event_letter e ++ h ++ m) = Some ([(4%nat, m)] ++ hour_piece h ++ [(2%nat, event_letter e); (1%nat, name)])%list.
Proof.
  intros name e h m hv mv L E H M. assert (B : Lang (rx "[BE]") (event_letter e)) by (destruct E; subst e; apply closed_lang; reflexivity).
  assert (Lm : Lang (rx "\d\d") m) by (apply (numeral_lang _ _ _ _ M); reflexivity).
  destruct H as [-> |H].
  - eapply captured_as; [vm_compute; reflexivity|unfold rgx_begin_end; eapply (K_seq _ _ name); [eapply K_grp; apply flat_cap; [reflexivity|exact L]|];
    eapply K_seq; [cap|]; eapply K_seq; [apply K_opt0|cap]|reflexivity].
  - assert (Lh : Lang (rx "\d\d") h) by (apply (numeral_lang _ _ _ _ H); reflexivity).
    unfold hour_piece. destruct h as [|c h]; [destruct H; discriminate|]. cbn [sempty].
    eapply captured_as; [vm_compute; reflexivity|unfold rgx_begin_end; eapply (K_seq _ _ name); [eapply K_grp; apply flat_cap; [reflexivity|exact L]|];
    eapply K_seq; [cap|]; eapply K_seq; [apply K_opt1; eapply K_grp; apply flat_cap; [reflexivity|exact Lh]|cap]|reflexivity].
Qed.
Definition follows (prev : WeatherPhenomena) (before : option phenomenon) : Prop :=
  match before with None => prev = WeatherPhenomena_default | Some x => seen prev = x end.
Lemma default_invalid : Wp_isValid WeatherPhenomena_default = Ok false.
Proof. vm_compute. reflexivity. Qed.
Lemma seen_shows : forall p q d ws e t, seen p = mkPhenomenon q d ws e t <-> shows p q d ws e /\ wpTm p = t.
Proof. intros p q d ws e t. unfold seen, shows. split; [intros H; injection H as <- <- <- <- <-; auto|intros ((-> & -> & -> & ->) & ->); reflexivity]. Qed.
(** A phenomenon that was recognised is valid if its time is. *)
Lemma again_valid : forall prev q d ws e t, wp_wf prev -> seen prev = mkPhenomenon q d ws e (Some t) -> (q <> Q_NONE \/ d <> D_NONE \/ ws <> []) ->
  (Wp_isValid prev = Ok true <-> MetafTime_isValid t = true).
Proof.
  intros prev q d ws e t Wf S N. apply seen_shows in S. destruct S as [(Sq & Sd & Sw & Se) St].
  destruct Wf as (q' & d' & w' & e' & (Sq' & Sd' & Sw' & Se') & _ & _ & _ & _ & Len & F). rewrite Sq in Sq'. rewrite Sd in Sd'. rewrite Sw in Sw'. subst q' d' w'.
  unfold Wp_isValid. rewrite Sq, Sd, Sw, St. cbv zeta.
  destruct (WpQualifier_beq q Q_NONE && WpDescriptor_beq d D_NONE && Nat.eqb (List.length ws) 0) eqn:E.
  { apply andb_prop in E. destruct E as [E E3]. apply andb_prop in E. destruct E as [E1 E2]. apply internal_WpQualifier_dec_bl in E1. apply internal_WpDescriptor_dec_bl in E2.
    apply Nat.eqb_eq in E3. destruct ws; [|discriminate E3]. destruct N as [N|[N|N]]; congruence. }
  destruct (MetafTime_isValid t); cbn [negb]; [|split; discriminate].
  destruct (WpDescriptor_beq d D_FREEZING) eqn:Z; [|tauto]. apply internal_WpDescriptor_dec_bl in Z. specialize (F Z).
  assert (X : wp_fz_loop 3 0 ws = Ok true); [|rewrite X; cbn; tauto]. clear - F Len.
  destruct ws as [|a [|b [|c [|? ?]]]]; try discriminate F; cbn [existsb] in F; [| | |cbn in Len; lia];
    destruct a; try reflexivity; try discriminate F; destruct b; try reflexivity; try discriminate F; destruct c; try reflexivity; try discriminate F.
Qed.
Lemma time_ok : forall h m, MetafTime_isValid (mkTime None h m) = true <-> (h <= 24 /\ m <= 59)%N.
Proof.
  intros h m. unfold MetafTime_isValid. cbn [dayValue hourValue minuteValue]. cbv zeta. change ((31 <? 31)%N || (31 =? 0)%N) with false.
  destruct (N.ltb_spec 24 h), (N.ltb_spec 59 m); split; try discriminate; lia.
Qed.
Definition event_form (x : phenomenon) : Prop :=
  exists d ws e h m, x = mkPhenomenon Q_NONE d ws e (Some (mkTime None h m)) /\ (d <> D_NONE \/ ws <> []).
Definition begun (before : option phenomenon) : Prop := match before with None => True | Some x => event_form x end.
Lemma event_formed : forall now before s p, begun before -> Event now before s p -> event_form p.
Proof.
  intros now before s p B [name d ws e h hour m minute N E H M]. exists d, ws, e, hour, minute. split; [reflexivity|].
  destruct N as [[R _]|(_ & e' & h' & m' & -> & _)].
  - apply written_name in R. destruct R as (_ & _ & N). destruct d; try (left; discriminate). right. intros ->. apply N. reflexivity.
  - destruct B as (d' & ws' & e'' & h'' & m'' & X & Y). injection X as <- <- _ _ _. exact Y.
Qed.
Lemma event_seen : forall now prev before s p, wp_wf prev -> follows prev before -> begun before -> event_text now prev s p -> Event now before s (seen p).
Proof.
  intros now prev before s p Wf F B (ph & ev & h & m & q & d & ws & hour & minute & -> & E & H & M & N & S & T).
  rewrite (proj2 (seen_shows p q d ws ev (Some (mkTime None hour minute)))) by auto.
  assert (X : q = Q_NONE /\ (recognised false Q_NONE d ws /\ ph = written Q_NONE d ws
    \/ ph = "" /\ (exists e' hour' minute', before = Some (mkPhenomenon Q_NONE d ws e' (Some (mkTime None hour' minute'))) /\ (hour' <= 24)%N /\ (minute' <= 59)%N))).
  { destruct N as [(-> & (e & Sh) & V)|[R ->]].
    - destruct before as [x|]; [|cbn in F; subst prev; rewrite default_invalid in V; discriminate V]. cbn in F, B. subst x.
      destruct B as (d' & ws' & e' & h' & m' & X & Y). pose proof X as X2. unfold seen in X. destruct Sh as (Sq & Sd & Sw & Se). rewrite Sq, Sd, Sw, Se in X. injection X as -> <- <- <- Ht.
      split; [reflexivity|]. right. split; [reflexivity|]. exists e, h', m'. split; [f_equal; exact X2|].
      apply time_ok. apply (again_valid _ _ _ _ _ _ Wf X2); [tauto|exact V].
    - destruct (written_name _ _ _ R) as (-> & _). auto. }
  destruct X as [-> X]. apply Event_text; assumption.
Qed.
Lemma event_made : forall now prev before s x, wp_wf prev -> follows prev before -> begun before -> Event now before s x ->
  exists p, Wp_fromWeatherBeginEndString s now prev = Ok (Some p) /\ seen p = x /\ wp_wf p.
Proof.
  intros now prev before s x Wf F B [name d ws e h hour m minute N E H M].
  assert (L : Lang re_name name).
  { destruct N as [[R ->]|[-> _]]; [apply written_name in R; apply R|apply L_opt0]. }
  set (text := name ++ event_letter e ++ h ++ m).
  assert (X : exists p, Wp_fromWeatherBeginEndString text now prev = Ok (Some p) /\ seen p = mkPhenomenon Q_NONE d ws e (Some (mkTime None hour minute))).
  { unfold Wp_fromWeatherBeginEndString, text. rewrite (begin_end_match name e h m hour minute L E) by (try assumption; destruct H as [[-> _]|H]; auto).
    set (c := ([(4%nat, m)] ++ hour_piece h ++ [(2%nat, event_letter e); (1%nat, name)])%list).
    assert (M1 : mstr c 1 = name) by (unfold c, hour_piece; destruct (sempty h); reflexivity).
    assert (M2 : mstr c 2 = event_letter e) by (unfold c, hour_piece; destruct (sempty h); reflexivity).
    assert (M3 : mstr c 3 = h) by (unfold c, hour_piece; destruct h; reflexivity).
    assert (M4 : mstr c 4 = m) by reflexivity.
    cbv zeta. rewrite M1, M2, M3, M4. clearbody c.
    assert (R : exists r e0, (if negb (sempty name) then Wp_fromString name false else let! v := Wp_isValid prev in if negb v then Ok None else Ok (Some prev)) = Ok (Some r)
      /\ shows r Q_NONE d ws e0 /\ proper_d d /\ Forall proper_w ws /\ (List.length ws <= 3)%nat).
    { destruct N as [[R ->]|(-> & e' & h' & m' & -> & Hh & Hm)].
      - destruct (written_name _ _ _ R) as (_ & _ & Ne). destruct (weather_complete _ _ _ _ R) as (r & Hr & Sh & _).
        destruct (recognised_proper _ _ _ _ R) as (_ & Pd & Pw). destruct (recognised_shape _ _ _ _ R) as (Len & _).
        exists r, Ev_NONE. destruct (written Q_NONE d ws) as [|a b] eqn:W; [contradiction|]. cbn [sempty negb]. auto.
      - cbn [sempty negb]. cbn in F, B. destruct B as (d' & ws' & e'' & h'' & m'' & X & Y). injection X as <- <- _ _ _.
        assert (V : Wp_isValid prev = Ok true) by (apply (again_valid _ _ _ _ _ _ Wf F); [tauto|apply time_ok; lia]).
        rewrite V. cbn [bind negb]. apply seen_shows in F. destruct F as [Sh _].
        destruct Wf as (q0 & d0 & w0 & e0 & (Sq & Sd & Sw & Se) & _ & Pd & Pw & _ & Len & _). destruct Sh as (Sq' & Sd' & Sw' & Se').
        rewrite <- Sd, Sd' in Pd. rewrite <- Sw, Sw' in Pw, Len. exists prev, e'. split; [reflexivity|]. split; [|auto]. unfold shows. auto. }
    destruct R as (r & e0 & -> & Sh & Pd & Pw & Len). cbn [bind].
    assert (Pe : proper_e e) by (destruct E; subst e; exact I).
    replace (if seqb (event_letter e) "E" then Ok Ev_ENDING else if seqb (event_letter e) "B" then Ok Ev_BEGINNING else Bad UB) with (Ok e) by (destruct E; subst e; reflexivity).
    cbn [bind]. destruct Sh as (Sq & Sd & Sw & _). rewrite Sq, Sd, Sw.
    destruct (packing Q_NONE d ws e (Some (mkTime None hour minute)) I Pd Pw Pe Len) as (y & -> & Sy). cbn [bind].
    rewrite (stoi_numeral _ _ _ M) by lia. cbn [bind].
    assert (Hr : (if negb (sempty h) then stoi h else Ok (hourValue now)) = Ok hour).
    { destruct H as [[-> ->]|H]; [reflexivity|]. destruct h as [|a h]; [destruct H; discriminate|]. cbn [sempty negb]. apply (stoi_numeral _ _ _ H). lia. }
    rewrite Hr. cbn [bind]. eexists. split; [reflexivity|]. apply seen_shows. split; [exact Sy|reflexivity]. }
  destruct X as (p & Hp & Sp). exists p. split; [exact Hp|]. split; [exact Sp|].
  pose proof (ok_fromWeatherBeginEndString text now _ Wf) as O. rewrite Hp in O. cbn in O. exact (O p eq_refl).
Qed.

(** ** The events of a word *)
Lemma event_shape : forall now before s x, Event now before s x ->
  exists c a b, s = String c (a ++ b) /\ str_all (fun c => Bool.eqb (is_digit c) false) (String c a) = true
    /\ b <> "" /\ str_all (fun c => Bool.eqb (is_digit c) true) b = true /\ (3 <= slen s)%nat.
Proof.
  intros now before s x [name d ws e h hour m minute N E H M].
  assert (Ln : str_all (fun c => Bool.eqb (is_digit c) false) name = true).
  { assert (L : Lang re_name name) by (destruct N as [[R ->]|[-> _]]; [apply written_name in R; apply R|apply L_opt0]).
    eapply lang_cls_all; [exact L|vm_compute; reflexivity]. }
  assert (Lb : exists k, event_letter e = String k "" /\ is_digit k = false) by (destruct E; subst e; eexists; split; reflexivity).
  destruct Lb as (k & Ek & Dk). rewrite Ek.
  assert (Ld : str_all (fun c => Bool.eqb (is_digit c) true) (h ++ m) = true).
  { assert (D : forall n u v, numeral n u v -> str_all (fun c => Bool.eqb (is_digit c) true) u = true).
    { intros n u v [_ D]. assert (A : all_digits u = true) by (apply decimal_all_digits; eauto). rewrite all_digits_str_all in A. clear D. induction u as [|a u IH]; [reflexivity|].
      cbn [str_all] in *. apply andb_prop in A. destruct A as [-> A]. cbn. apply IH. exact A. }
    rewrite str_all_app. rewrite (D _ _ _ M), andb_true_r. destruct H as [[-> _]|H]; [reflexivity|exact (D _ _ _ H)]. }
  assert (Lm : slen m = 2%nat) by (destruct M as [M _]; exact M).
  assert (Nm : h ++ m <> "") by (intros Z; apply (f_equal slen) in Z; rewrite slen_app, Lm in Z; cbn in Z; lia).
  assert (Len : (3 <= slen (name ++ String k "" ++ h ++ m))%nat) by (rewrite !slen_app, Lm; cbn; lia).
  destruct name as [|c name].
  - exists k, "", (h ++ m). cbn [append]. split; [reflexivity|]. cbn [str_all]. rewrite Dk. auto.
  - exists c, (name ++ String k ""), (h ++ m). split; [cbn [append]; f_equal; exact (sapp_assoc name (String k "") (h ++ m))|]. split; [|auto].
    cbn [str_all] in *. rewrite str_all_app. cbn [str_all]. rewrite Dk, andb_true_r. exact Ln.
Qed.
Lemma get_here : forall pre c post, sget (pre ++ String c post) (slen pre) = Ok c.
Proof. intros pre c post. eapply sget_sdrop_cons. apply sdrop_app. Qed.
Lemma loop_quiet : forall d x t n st prev r pre post ld, str_all (fun c => Bool.eqb (is_digit c) d) x = true -> (d = false -> ld = false) ->
  Weather_eventLoop (pre ++ x ++ post) t (slen x + n) (slen pre) st ld prev r
  = Weather_eventLoop (pre ++ x ++ post) t n (slen pre + slen x) st (match x with "" => ld | _ => d end) prev r.
Proof.
  intros d x t n st prev r. induction x as [|c x IH]; intros pre post ld A D.
  - cbn [slen Nat.add]. rewrite Nat.add_0_r. reflexivity.
  - cbn [str_all] in A. apply andb_prop in A. destruct A as [Ac A]. apply Bool.eqb_prop in Ac.
    change (slen (String c x) + n)%nat with (S (slen x + n)). cbn [Weather_eventLoop]. cbn [append]. rewrite get_here. cbn [bind]. cbv zeta. rewrite Ac.
    assert (Z : negb d && ld = false) by (destruct d; [reflexivity|cbn; apply D; reflexivity]). rewrite Z.
    assert (G : pre ++ String c (x ++ post) = (pre ++ String c "") ++ x ++ post) by (rewrite <- sapp_assoc; reflexivity).
    assert (P : S (slen pre) = slen (pre ++ String c "")) by (rewrite slen_app; cbn; lia).
    rewrite G, P. rewrite IH; [|exact A|intros ->; reflexivity]. rewrite <- P.
    assert (Q : (slen pre + slen (String c x) = S (slen pre) + slen x)%nat) by (cbn [slen String.length]; fold (slen x); lia). rewrite Q. destruct x; reflexivity.
Qed.
Lemma add_made : forall ps p, Weather_addIgnoring (mkWeather Wx_EVENT (firstn 20 ps) WxI_NONE) p = Ok (mkWeather Wx_EVENT (firstn 20 (ps ++ [p])%list) WxI_NONE).
Proof.
  intros ps p. destruct (Weather_addIgnoring _ p) as [g|b] eqn:E; [f_equal; exact (add_ignoring _ _ _ E)|exfalso].
  unfold Weather_addIgnoring, Weather_addWeatherPhenomena in E. cbn [wx_w wx_t wx_inc] in E. unfold wSize, array_push in E.
  destruct (Nat.leb_spec 20 (List.length (firstn 20 ps))) as [L|L]; [discriminate E|].
  destruct (Nat.ltb_spec (List.length (firstn 20 ps)) 20) as [_|L2]; [discriminate E|lia].
Qed.
Lemma loop_made : forall t ss pre s1 prev before ps x1 xs group, group = pre ++ s1 ++ concatenated ss ->
  wp_wf prev -> follows prev before -> begun before -> Event t before s1 x1 -> Events t (Some x1) ss xs ->
  exists st' prev' ps' p, Weather_eventLoop group t (slen (concatenated ss)) (slen pre + slen s1) (slen pre) true prev (mkWeather Wx_EVENT (firstn 20 ps) WxI_NONE)
      = Ok (Some (st', prev', mkWeather Wx_EVENT (firstn 20 ps') WxI_NONE))
    /\ (st' <= slen group)%nat /\ Wp_fromWeatherBeginEndString (sdrop st' group) t prev' = Ok (Some p)
    /\ map seen (ps' ++ [p])%list = (map seen ps ++ x1 :: xs)%list.
Proof.
  intros t ss. induction ss as [|s2 ss IH]; intros pre s1 prev before ps x1 xs group G Wf F B E1 Es;
    destruct (event_made _ _ _ _ _ Wf F B E1) as (p1 & H1 & S1 & W1).
  - inversion Es; subst xs. cbn [concatenated fold_right] in *. rewrite sapp_nil_r in G. cbn [slen Weather_eventLoop].
    exists (slen pre), prev, ps, p1. split; [reflexivity|]. subst group. split; [rewrite slen_app; lia|]. rewrite sdrop_app. split; [exact H1|].
    rewrite map_app. cbn [map]. rewrite S1. reflexivity.
  - inversion Es as [|? ? x2 ? xs' E2 Es']; subst.
    pose proof (event_shape _ _ _ _ E1) as (_ & _ & _ & _ & _ & _ & _ & Len1).
    destruct (event_shape _ _ _ _ E2) as (c & a & b & S2 & A & Nb & D & _).
    cbn [concatenated fold_right]. change (fold_right append "" ss) with (concatenated ss).
    pose proof A as A0. cbn [str_all] in A. apply andb_prop in A. destruct A as [Ac A]. apply Bool.eqb_prop in Ac.
    assert (G1 : pre ++ s1 ++ s2 ++ concatenated ss = (pre ++ s1) ++ String c (a ++ b ++ concatenated ss)).
    { rewrite S2. rewrite <- !sapp_assoc. cbn [append]. rewrite <- sapp_assoc. reflexivity. }
    set (group := pre ++ s1 ++ s2 ++ concatenated ss) in *.
    assert (Ls : slen s2 = S (slen a + slen b)) by (rewrite S2; cbn [slen String.length]; rewrite <- slen_app; reflexivity).
    assert (Lc : slen (s2 ++ concatenated ss) = S (slen a + (slen b + slen (concatenated ss)))) by (rewrite slen_app, Ls; lia).
    rewrite Lc. rewrite <- (slen_app pre s1). cbn [Weather_eventLoop].
    assert (Get : sget group (slen (pre ++ s1)) = Ok c) by (rewrite G1; apply get_here). rewrite Get. cbn [bind]. cbv zeta. rewrite Ac. cbn [negb andb].
    replace (slen (pre ++ s1) - slen pre)%nat with (slen s1) by (rewrite slen_app; lia).
    destruct (Nat.ltb_spec (slen s1) 3) as [X|_]; [lia|].
    assert (Sub : substr group (slen pre) (slen s1) = Ok s1).
    { unfold substr. destruct (Nat.leb_spec (slen pre) (slen group)) as [_|X]; [|unfold group in X; rewrite slen_app in X; lia].
      rewrite substring_sdrop. unfold group. rewrite sdrop_app, substring0_app. reflexivity. }
    rewrite Sub. cbn [bind]. rewrite H1. cbn [bind]. rewrite add_made. cbn [bind].
    assert (G2 : group = ((pre ++ s1) ++ String c "") ++ a ++ (b ++ concatenated ss)) by (rewrite G1, <- (sapp_assoc (pre ++ s1)); reflexivity).
    assert (P2 : S (slen (pre ++ s1)) = slen ((pre ++ s1) ++ String c "")) by (rewrite slen_app with (a := pre ++ s1); cbn; lia).
    assert (Go : forall r, Weather_eventLoop group t (slen a + (slen b + slen (concatenated ss))) (S (slen (pre ++ s1))) (slen (pre ++ s1)) false p1 r
      = Weather_eventLoop group t (slen (concatenated ss)) (slen (pre ++ s1) + slen s2) (slen (pre ++ s1)) true p1 r).
    { intros r. rewrite G2, P2. rewrite (loop_quiet false a _ _ _ _ _ _ _ false A (fun _ => eq_refl)).
      assert (L2 : match a with "" => false | _ => false end = false) by (destruct a; reflexivity). rewrite L2.
      assert (G3 : ((pre ++ s1) ++ String c "") ++ a ++ b ++ concatenated ss = (((pre ++ s1) ++ String c "") ++ a) ++ b ++ concatenated ss) by (rewrite sapp_assoc; reflexivity).
      rewrite G3, <- (slen_app ((pre ++ s1) ++ String c "") a). rewrite (loop_quiet true b); [|exact D|discriminate].
      assert (L3 : match b with "" => false | _ => true end = true) by (destruct b; [contradiction|reflexivity]). rewrite L3.
      f_equal. rewrite Ls, !slen_app. cbn [slen String.length]. lia. }
    rewrite Go.
    destruct (IH (pre ++ s1) s2 p1 (Some (seen p1)) (ps ++ [p1])%list x2 xs' group) as (st' & prev' & ps' & p & H & Le & Hp & M).
    { unfold group. apply sapp_assoc. }
    { exact W1. } { reflexivity. } { exact (event_formed _ _ _ _ B E1). } { exact E2. } { exact Es'. }
    exists st', prev', ps', p. split; [exact H|]. split; [exact Le|]. split; [exact Hp|]. rewrite M, map_app, <- app_assoc. reflexivity.
Qed.
Lemma events_made : forall t ss xs, ss <> [] -> Events t None ss xs ->
  exists ps, Weather_parseWeatherEvent (concatenated ss) t = Ok (Some (mkWeather Wx_EVENT (firstn 20 ps) WxI_NONE)) /\ map seen ps = xs.
Proof.
  intros t ss xs N E. inversion E as [|? s1 x1 ss' xs' E1 Es]; subst; [contradiction|]. clear N E.
  destruct (event_shape _ _ _ _ E1) as (c & a & b & S1 & A & Nb & D & _).
  destruct (loop_made t ss' "" s1 WeatherPhenomena_default None [] x1 xs' (concatenated (s1 :: ss')) eq_refl wp_wf_default eq_refl I E1 Es) as (st' & prev' & ps' & p & H & Le & Hp & M).
  exists (ps' ++ [p])%list. split; [|exact M]. unfold Weather_parseWeatherEvent.
  assert (Go : Weather_eventLoop (concatenated (s1 :: ss')) t (slen (concatenated (s1 :: ss'))) 0 0 false WeatherPhenomena_default (Weather_of Wx_EVENT WxI_NONE)
    = Weather_eventLoop (concatenated (s1 :: ss')) t (slen (concatenated ss')) (slen "" + slen s1) (slen "") true WeatherPhenomena_default (mkWeather Wx_EVENT (firstn 20 []) WxI_NONE)).
  { cbn [concatenated fold_right]. change (fold_right append "" ss') with (concatenated ss'). rewrite S1.
    set (x := String c a) in *. change (String c (a ++ b)) with (x ++ b). rewrite slen_app, slen_app, <- Nat.add_assoc, <- sapp_assoc.
    change (x ++ b ++ concatenated ss') with ("" ++ x ++ b ++ concatenated ss'). change 0%nat with (slen "") at 1.
    rewrite (loop_quiet false x _ _ _ _ _ _ _ false A (fun _ => eq_refl)). cbn [append].
    replace (match x with "" => false | _ => false end) with false by reflexivity. change (slen "" + slen x)%nat with (slen x).
    rewrite (loop_quiet true b); [|exact D|discriminate].
    assert (L3 : match b with "" => false | _ => true end = true) by (destruct b; [contradiction|reflexivity]). rewrite L3. reflexivity. }
  rewrite Go, H. cbn [bind]. unfold substr_from, substr. destruct (Nat.leb_spec st' (slen (concatenated (s1 :: ss')))) as [_|X]; [|lia]. cbn [bind].
  rewrite substring_from. rewrite Hp. cbn [bind]. rewrite add_made. reflexivity.
Qed.

(** ** The words of the body *)
Lemma word_seen : forall part s p, body_weather part s p -> Word part s (seen p).
Proof.
  intros part s p [(P & -> & S & T)|[(P & -> & S & T)|(q & d & ws & P & R & -> & S & T)]].
  - rewrite (proj2 (seen_shows p Q_RECENT D_NONE [W_NOT_REPORTED] Ev_NONE None)) by auto. apply Word_recent_unknown. exact P.
  - rewrite (proj2 (seen_shows p Q_NONE D_NONE [W_NOT_REPORTED] Ev_NONE None)) by auto. apply Word_unknown. exact P.
  - rewrite (proj2 (seen_shows p q d ws Ev_NONE None)) by auto. apply Word_weather; assumption.
Qed.
Lemma word_made : forall part s x, Word part s x -> exists p, Weather_parseWeatherWithoutEvent s part = Ok (Some p) /\ seen p = x.
Proof.
  intros part s x [P|P|q d ws P R].
  - subst part. eexists. split; reflexivity.
  - subst part. eexists. split; reflexivity.
  - destruct (weather_complete _ _ _ _ R) as (p & H & S & T). exists p. split; [|apply seen_shows; auto].
    unfold Weather_parseWeatherWithoutEvent.
    assert (Pm : negb (is_part part RP_METAR) && negb (is_part part RP_TAF) = false) by (destruct P as [-> |[-> _]]; reflexivity). rewrite Pm.
    destruct (is_part part RP_METAR && seqb (written q d ws) "RE//") eqn:E1.
    { apply andb_prop in E1. destruct E1 as [_ E1]. apply seqb_eq in E1. rewrite E1 in H. vm_compute in H. discriminate H. }
    destruct (is_part part RP_METAR && seqb (written q d ws) "//") eqn:E2.
    { apply andb_prop in E2. destruct E2 as [_ E2]. apply seqb_eq in E2. rewrite E2 in H. vm_compute in H. discriminate H. }
    rewrite H. cbn [bind]. destruct S as (-> & _). destruct P as [-> |[-> P]]; [reflexivity|]. cbn [is_part andb]. destruct (WpQualifier_beq q Q_RECENT) eqn:Q; [|reflexivity].
    apply recent_true in Q. contradiction.
Qed.
Lemma no_weather : forall part x, ~ Word part "NSW" x.
Proof.
  intros part x W. assert (G : forall s, Word part s x -> s <> "NSW"); [|exact (G _ W eq_refl)]. clear W. intros s [P|P|q d ws P R] E; try discriminate E.
  destruct (weather_complete _ _ _ _ R) as (p & H & _). rewrite E in H. vm_compute in H. discriminate H.
Qed.

(** ** Groups *)
Definition WState (part : ReportPart) (now : option MetafTime) (ws : list string) (g : WeatherGroup) : Prop :=
  match wx_inc g with
  | WxI_NONE => WeatherTold part now ws (weather_told g)
  | WxI_WX => part = RP_RMK /\ ws = ["WX"] /\ g = Weather_of Wx_WX_MISG WxI_WX
  | WxI_TSLTNG => part = RP_RMK /\ ws = ["TS/LTNG"] /\ g = Weather_of Wx_TS_LTNG_TEMPO_UNAVBL WxI_TSLTNG
  | WxI_TSLTNG_TEMPO => part = RP_RMK /\ ws = ["TS/LTNG"; "TEMPO"] /\ g = Weather_of Wx_TS_LTNG_TEMPO_UNAVBL WxI_TSLTNG_TEMPO
  end.
Lemma events_seen : forall t prev ss ps, events t prev ss ps -> forall before, wp_wf prev -> follows prev before -> begun before ->
  Forall wp_wf ps -> Events t before ss (map seen ps).
Proof.
  intros t prev ss ps E. induction E as [prev|prev s p ss ps X E IH]; intros before Wf F B W; [constructor|]. cbn [map].
  pose proof (event_seen _ _ _ _ _ Wf F B X) as Y. inversion W; subst. constructor; [exact Y|]. apply IH; [assumption|reflexivity|exact (event_formed _ _ _ _ B Y)|assumption].
Qed.
Lemma shown_wf : forall t prev s p, wp_wf prev -> event_text t prev s p -> wp_wf p.
Proof.
  intros t prev s p Wf (ph & ev & h & m & q & d & ws & hour & minute & _ & E & _ & _ & N & S & T). exists q, d, ws, ev. split; [exact S|].
  destruct N as [(_ & (e & Sh) & _)|[R _]].
  - destruct Wf as (q' & d' & w' & e' & (Sq & Sd & Sw & Se) & Pq & Pd & Pw & _ & L & F). destruct Sh as (Sq' & Sd' & Sw' & _).
    rewrite <- Sq, Sq' in Pq. rewrite <- Sd, Sd' in Pd, F. rewrite <- Sw, Sw' in Pw, L, F. repeat (split; [assumption|]). split; [destruct E; subst; exact I|auto].
  - destruct (recognised_proper _ _ _ _ R) as (Pq & Pd & Pw). destruct (recognised_shape _ _ _ _ R) as (L & _). repeat (split; [assumption|]). split; [destruct E; subst; exact I|]. split; [exact L|].
    intros ->. destruct (weather_complete _ _ _ _ R) as (x & H & (Xq & Xd & Xw & Xe) & _). pose proof (ok_Wp_fromString (written q D_FREEZING ws) false) as O. rewrite H in O. cbn in O.
    destruct (O x eq_refl) as (q' & d' & w' & e' & (Sq & Sd & Sw & Se) & _ & _ & _ & _ & _ & F). rewrite <- Sd, Xd in F. rewrite <- Sw, Xw in F. apply F. reflexivity.
Qed.
Lemma events_wf : forall t prev ss ps, events t prev ss ps -> wp_wf prev -> Forall wp_wf ps.
Proof. intros t prev ss ps E. induction E as [prev|prev s p ss ps X E IH]; intros Wf; [constructor|]. pose proof (shown_wf _ _ _ _ Wf X). constructor; auto. Qed.
Lemma weather_starts : forall s part md g, WeatherGroup_parse s part md = Ok (Some g) -> WState part (md_reportTime md) [s] g.
Proof.
  intros s part md g H. unfold WeatherGroup_parse, or_else in H. apply bind_ok in H. destruct H as (o & H1 & H).
  destruct (is_part part RP_METAR || is_part part RP_TAF) eqn:Ep.
  - assert (P : part = RP_METAR \/ part = RP_TAF) by (destruct part; cbn in Ep; try discriminate; auto).
    destruct (seqb s "NSW") eqn:En.
    { injection H1 as <-. injection H as <-. apply seqb_eq in En. subst s. exact (Told_none _ _ P). }
    apply bind_ok in H1. destruct H1 as ([p|] & Hp & H1).
    2:{ injection H1 as <-. destruct P as [-> | ->]; discriminate H. }
    injection H1 as <-. injection H as <-. apply body_word in Hp. apply word_seen in Hp. unfold WState, weather_told. cbn [wx_inc wx_t wx_w WeatherGroup_weatherPhenomena map].
    destruct (WpQualifier_beq (Wp_qualifier p) Q_RECENT) eqn:Q; constructor; try discriminate; try (cbn; lia); repeat constructor; try assumption.
    + exact (recent_true _ Q).
    + exact (recent_false _ Q).
  - injection H1 as <-. destruct (is_part part RP_RMK) eqn:Er; [|discriminate]. apply is_part_true in Er.
    destruct (seqb s "PWINO") eqn:E1; [injection H as <-; apply seqb_eq in E1; subst s; exact (Told_sensor _ _ Er)|].
    destruct (seqb s "TSNO") eqn:E2; [injection H as <-; apply seqb_eq in E2; subst s; exact (Told_no_lightning _ _ Er)|].
    destruct (seqb s "WX") eqn:E3; [injection H as <-; apply seqb_eq in E3; subst s; repeat split; exact Er|].
    destruct (seqb s "TS/LTNG") eqn:E4; [injection H as <-; apply seqb_eq in E4; subst s; repeat split; exact Er|].
    destruct (md_reportTime md) as [t|]; [|discriminate].
    destruct (events_sound _ _ _ H) as (ss & ps & N & Es & Ev & ->). unfold WState, weather_told. cbn [wx_inc wx_t wx_w WeatherGroup_weatherPhenomena].
    rewrite Es, <- firstn_map. apply (Told_events part (Some t) t ss (map seen ps) Er eq_refl N).
    exact (events_seen _ _ _ _ Ev None wp_wf_default eq_refl I (events_wf _ _ _ _ Ev wp_wf_default)).
Qed.
Lemma same_length : forall (A B : Type) (R : A -> B -> Prop) l k, Forall2 R l k -> List.length l = List.length k.
Proof. intros A B R l k F. induction F as [|x y l k _ F IH]; [reflexivity|]. cbn [List.length]. rewrite IH. reflexivity. Qed.
Lemma weather_goes_on : forall words s part now md g g', WState part now words g ->
  WeatherGroup_append g s part md = Ok (g', APPENDED) -> WState part now (words ++ [s])%list g'.
Proof.
  intros words s part now md [t w inc] g' W H. unfold WeatherGroup_append in H. cbn [wx_inc wx_t] in H. unfold WState in W. cbn [wx_inc] in W.
  destruct inc.
  - destruct (negb (WxType_beq t Wx_CURRENT) && negb (WxType_beq t Wx_RECENT)) eqn:T; [discriminate H|].
    apply bind_ok in H. destruct H as ([p|] & Hp & H); [|discriminate H].
    apply body_word in Hp. apply word_seen in Hp. cbv zeta in H.
    destruct (WxType_beq t Wx_CURRENT && _) eqn:C1; [discriminate H|].
    destruct (WxType_beq t Wx_RECENT && _) eqn:C2; [discriminate H|].
    apply bind_ok in H. destruct H as ([k|] & Hk & H); [|discriminate H]. injection H as <-. unfold Weather_addWeatherPhenomena in Hk. cbn [wx_w wx_t wx_inc] in Hk.
    destruct (Nat.leb _ _); [discriminate|]. apply bind_ok in Hk. destruct Hk as (l & Hl & Hk). injection Hk as <-.
    unfold array_push in Hl. destruct (Nat.ltb_spec (List.length w) 20) as [Lt|]; [|discriminate]. injection Hl as <-.
    unfold WState, weather_told in *. cbn [wx_w wx_t wx_inc WeatherGroup_weatherPhenomena] in *. rewrite map_app. cbn [map].
    assert (Lw : forall ws, Forall2 (Word part) ws (map seen w) -> (List.length (ws ++ [s]) <= 20)%nat).
    { intros ws F. apply same_length in F. rewrite map_length in F. rewrite app_length. cbn. lia. }
    destruct t; try discriminate T; inversion W; subst; constructor; try (apply Lw; assumption); try (intros Z; destruct words; discriminate Z);
      try (apply Forall2_app; [assumption|repeat constructor; assumption]); apply Forall_app; (split; [assumption|constructor; [|constructor]]).
    + cbn in C1. exact (recent_false _ C1).
    + cbn in C2. apply Bool.negb_false_iff in C2. exact (recent_true _ C2).
  - destruct (seqb s "MISG") eqn:E; cbn [negb] in H; [|discriminate H]. injection H as <-. apply seqb_eq in E. subst s. destruct W as (P & -> & X). injection X as -> ->. exact (Told_missing _ _ P).
  - destruct (seqb s "TEMPO") eqn:E; cbn [negb] in H; [|discriminate H]. injection H as <-. apply seqb_eq in E. subst s. destruct W as (P & -> & X). injection X as -> ->. repeat split. exact P.
  - destruct (seqb s "UNAVBL") eqn:E; cbn [negb] in H; [|discriminate H]. injection H as <-. apply seqb_eq in E. subst s. destruct W as (P & -> & X). injection X as -> ->. exact (Told_lightning_out _ _ P).
Qed.
Lemma weather_refused : forall g s part md g', WeatherGroup_append g s part md = Ok (g', NOT_APPENDED) -> g' = g.
Proof.
  intros g s part md g' A. unfold WeatherGroup_append in A. destruct (wx_inc g); repeat match type of A with
    | context [if ?b then _ else _] => destruct b; try discriminate A
    | bind _ _ = Ok _ => apply bind_ok in A; destruct A as ([?|] & _ & A); cbv zeta in A; try discriminate A
    end; injection A as <-; reflexivity.
Qed.

Lemma weather_assembled : forall part now ws g, Assembled part now ws (GWeather g) -> WState part now ws g.
Proof.
  intros part now ws g A.
  refine (assembled_kind part now (fun ws k => match k with GWeather x => WState part now ws x | _ => True end) _ _ ws (GWeather g) A).
  - intros w md [] T P; try exact I. rewrite <- T. exact (weather_starts _ _ _ _ P).
  - intros ws' w md [] [] _ IH T B; try exact I; try contradiction. exact (weather_goes_on _ _ _ _ _ _ _ IH B).
Qed.
Lemma weather_grown : forall part now ws g, Grown part now ws (GWeather g) -> WState part now ws g.
Proof.
  intros part now ws g B.
  refine (grown_kind part now (fun ws k => match k with GWeather x => WState part now ws x | _ => True end) _ _ _ _ ws (GWeather g) B).
  - exact (fun _ => I).
  - intros w md [] T P; try exact I. rewrite <- T. exact (weather_starts _ _ _ _ P).
  - intros ws' w md [] [] _ IH T A; try exact I; try contradiction. exact (weather_goes_on _ _ _ _ _ _ _ IH A).
  - intros ws' w part' md [] [] _ IH A; try exact I; try contradiction. apply weather_refused in A. subst. exact IH.
Qed.
Lemma weather_settled : forall part now ws g, WState part now ws g -> SpecAssembled.settled part (GWeather g) -> wx_inc g = WxI_NONE.
Proof.
  intros part now ws g W S. destruct (wx_inc g) eqn:E; [reflexivity|exfalso..]; unfold WState in W; rewrite E in W; destruct W as (_ & _ & ->);
    (eapply (S "" md_default); reflexivity).
Qed.
Lemma settled_weather : forall part g, wx_inc g = WxI_NONE -> SpecAssembled.settled part (GWeather g).
Proof.
  intros part g E w md g' H. apply appended_inv in H. destruct g'; try contradiction. cbn [appended_as] in H. unfold WeatherGroup_append in H. rewrite E in H.
  repeat match type of H with
    | context [if ?b then _ else _] => destruct b; try discriminate H
    | bind _ _ = Ok _ => apply bind_ok in H; destruct H as ([?|] & _ & H); cbv zeta in H; try discriminate H
    end.
Qed.
Lemma current_made : forall part now ws xs (recent : bool), ws <> [] -> (List.length ws <= 20)%nat -> Forall2 (Word part) ws xs ->
  Forall (fun x => WpQualifier_beq (ph_qualifier x) Q_RECENT = recent) xs ->
  exists ps, Assembled part now ws (GWeather (mkWeather (if recent then Wx_RECENT else Wx_CURRENT) ps WxI_NONE)) /\ map seen ps = xs.
Proof.
  intros part now ws. induction ws as [|s ws IH] using rev_ind; intros xs recent N L F Q; [contradiction|]. clear N.
  apply Forall2_app_inv_l in F. destruct F as (xs1 & xs2 & F1 & F2 & ->). inversion F2 as [|? x ? ? Wx F3]; subst. inversion F3; subst. clear F2 F3.
  apply Forall_app in Q. destruct Q as [Q1 Q2]. inversion Q2 as [|? ? Qx _]; subst. clear Q2.
  destruct (word_made _ _ _ Wx) as (p & Hp & Sp).
  assert (Qp : Wp_qualifier p = ph_qualifier x) by (rewrite <- Sp; reflexivity).
  assert (Pm : is_part part RP_METAR || is_part part RP_TAF = true) by (destruct Wx as [-> | -> |? ? ? [-> |[-> _]] _]; reflexivity).
  destruct ws as [|s0 ws].
  - inversion F1. subst xs1. exists [p]. split; [|cbn; rewrite Sp; reflexivity]. cbn [app]. apply assembled_first. cbn [parsed_as]. unfold WeatherGroup_parse. rewrite Pm.
    destruct (seqb s "NSW") eqn:En; [apply seqb_eq in En; subst s; destruct (no_weather _ _ Wx)|]. rewrite Hp. cbn [bind or_else]. rewrite Qp. reflexivity.
  - assert (L' : (List.length (s0 :: ws) <= 19)%nat) by (rewrite app_length in L; cbn [List.length] in *; lia).
    destruct (IH xs1 (WpQualifier_beq (ph_qualifier x) Q_RECENT)) as (ps & A & M); [discriminate|lia|exact F1|exact Q1|].
    exists (ps ++ [p])%list. split; [|rewrite map_app, M; cbn; rewrite Sp; reflexivity].
    apply (assembled_more part now (s0 :: ws) s (GWeather _) (GWeather _) A). cbn [appended_as]. unfold WeatherGroup_append. cbn [wx_inc wx_t].
    assert (Lp : (List.length ps <= 19)%nat) by (apply same_length in F1; rewrite <- M, map_length in F1; lia).
    assert (Add : forall t, Weather_addWeatherPhenomena (mkWeather t ps WxI_NONE) p = Ok (Some (mkWeather t (ps ++ [p])%list WxI_NONE))).
    { intros t. unfold Weather_addWeatherPhenomena, wSize, array_push. cbn [wx_w wx_t wx_inc]. destruct (Nat.leb_spec 20 (List.length ps)); [lia|]. destruct (Nat.ltb_spec (List.length ps) 20); [reflexivity|lia]. }
    rewrite Hp. cbn [bind]. cbv zeta. rewrite Qp. destruct (WpQualifier_beq (ph_qualifier x) Q_RECENT); cbn [WxType_beq negb andb]; rewrite Add; reflexivity.
Qed.
Lemma weather_made : forall part now ws v, WeatherTold part now ws v ->
  exists g, Assembled part now ws (GWeather g) /\ wx_inc g = WxI_NONE /\ weather_told g = v.
Proof.
  assert (More : forall part now ws w g g', Assembled part now ws (GWeather g) -> WeatherGroup_append g w part (md_at now) = Ok (g', APPENDED) ->
            Assembled part now (ws ++ [w]) (GWeather g')) by (intros; eapply assembled_more; [eassumption|exact H0]).
  intros part now ws v W. destruct W as [words ps N L F Q|words ps N L F Q|t ss ps P T N E|P|P|P|P|P].
  - destruct (current_made part now words ps false N L F) as (l & A & M).
    { eapply Forall_impl; [|exact Q]. intros x Hx. destruct (WpQualifier_beq (ph_qualifier x) Q_RECENT) eqn:B; [apply recent_true in B; contradiction|reflexivity]. }
    eexists. split; [exact A|]. split; [reflexivity|]. unfold weather_told. cbn. rewrite M. reflexivity.
  - destruct (current_made part now words ps true N L F) as (l & A & M).
    { eapply Forall_impl; [|exact Q]. intros x Hx. cbn in Hx. rewrite Hx. reflexivity. }
    eexists. split; [exact A|]. split; [reflexivity|]. unfold weather_told. cbn. rewrite M. reflexivity.
  - destruct (events_made t ss ps N E) as (l & H & M). subst part now. eexists. split; [apply (assembled_first RP_RMK (Some t) _ (GWeather (mkWeather Wx_EVENT (firstn 20 l) WxI_NONE)))|].
    + cbn [parsed_as]. unfold WeatherGroup_parse. cbn [is_part orb or_else bind].
      assert (D : forall w, seqb w w = true -> Weather_parseWeatherEvent w t = Ok None -> seqb (concatenated ss) w = false).
      { intros w _ X. destruct (seqb (concatenated ss) w) eqn:Y; [|reflexivity]. apply seqb_eq in Y. rewrite Y, X in H. discriminate H. }
      rewrite (D "PWINO"), (D "TSNO"), (D "WX"), (D "TS/LTNG") by (vm_compute; reflexivity). cbn [md_at md_reportTime]. exact H.
    + split; [reflexivity|]. unfold weather_told. cbn [wx_t wx_w WeatherGroup_weatherPhenomena]. rewrite <- firstn_map, M. reflexivity.
  - eexists. split; [apply (assembled_first part now _ (GWeather (Weather_of Wx_NSW WxI_NONE))); cbn [parsed_as]; destruct P; subst part; reflexivity|]. split; reflexivity.
  - subst. eexists. split; [apply (assembled_first RP_RMK now _ (GWeather (Weather_of Wx_PWINO WxI_NONE))); reflexivity|]. split; reflexivity.
  - subst. eexists. split; [apply (assembled_first RP_RMK now _ (GWeather (Weather_of Wx_TSNO WxI_NONE))); reflexivity|]. split; reflexivity.
  - subst. eexists. split; [refine (More RP_RMK now ["WX"] "MISG" (Weather_of Wx_WX_MISG WxI_WX) _ _ _); [apply assembled_first; reflexivity|reflexivity]|]. split; reflexivity.
  - subst. eexists. split; [refine (More RP_RMK now ["TS/LTNG"; "TEMPO"] "UNAVBL" (Weather_of Wx_TS_LTNG_TEMPO_UNAVBL WxI_TSLTNG_TEMPO) _ _ _); [|reflexivity];
      refine (More RP_RMK now ["TS/LTNG"] "TEMPO" (Weather_of Wx_TS_LTNG_TEMPO_UNAVBL WxI_TSLTNG) _ _ _); [apply assembled_first; reflexivity|reflexivity]|]. split; reflexivity.
Qed.
Theorem weather_group_words : forall part now words,
  (forall g, Assembled part now words (GWeather g) -> SpecAssembled.settled part (GWeather g) -> WeatherTold part now words (weather_told g))
  /\ (forall v, WeatherTold part now words v -> exists g, Assembled part now words (GWeather g) /\ SpecAssembled.settled part (GWeather g) /\ weather_told g = v).
Proof.
  intros part now words. split.
  - intros g A S. pose proof (weather_assembled _ _ _ _ A) as W. pose proof (weather_settled _ _ _ _ W S) as E. unfold WState in W. rewrite E in W. exact W.
  - intros v W. destruct (weather_made _ _ _ _ W) as (g & A & E & T). exists g. split; [exact A|]. split; [exact (settled_weather _ _ E)|exact T].
Qed.
Theorem result_weather_group : forall sgn report limit r, parse sgn report limit = Ok r ->
  forall g part raw, In (mkGroupInfo (GWeather g) part raw) (pr_groups r) -> raw <> "" ->
  WeatherTold part (md_reportTime (pr_metadata r)) (words_of raw) (weather_told g).
Proof.
  intros sgn report limit r E g part raw Hi N.
  assert (P : part <> RP_HEADER).
  { intros ->. pose proof (Pf_Built.built_from_words _ _ _ _ E _ _ _ Hi N) as B.
    refine (Pf_WeatherWords.built_kind RP_HEADER (fun _ k => match k with GWeather x => False | _ => True end) _ _ _ _ _ _ B).
    - exact (fun _ => I).
    - intros w md [] X; try exact I. discriminate X.
    - intros ws w md [] [] _ IH A; try exact I; try contradiction.
    - intros ws w part' md [] [] _ IH A; try exact I; try contradiction. }
  pose proof (weather_grown _ _ _ _ (result_grown _ _ _ _ E _ _ _ Hi N P)) as B. unfold WState in B.
  destruct (wx_inc g) eqn:I; [exact B|exfalso..];
    (destruct (left_incomplete _ _ _ _ E (GWeather g) _ _ Hi N) as [X|[X _]]; [cbn; rewrite I; reflexivity| |]);
    try (destruct B as (_ & B & _); unfold left_open in X; rewrite B in X; destruct X as [X|[X|[X|X]]]; discriminate X); destruct B as (-> & _); discriminate X.
Qed.
