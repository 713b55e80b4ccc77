(** Times at which weather began and ended, and the words of a weather group. *)
From Coq Require Import Lia.
From Verif Require Import Prim Lib Regex Float Values Weather Groups1 Groups2 Groups3 SpecRegex SpecWeather SpecDecimal SpecNumeral SpecPhenomena.
From Verif Require Import Pf_Regex Pf_Ok Pf_Caps Pf_Decimal Pf_Decode Pf_Weather Pf_Phenomena.
Local Open Scope string_scope.

Lemma recognised_proper : forall b q d ws, recognised b q d ws -> proper_q q /\ proper_d d /\ Forall proper_w ws.
Proof.
  intros b q d ws R. destruct R as [b q d ws Kq Kd N L U K Sh Fz|b d ws I|d ws I|ws I|].
  - split; [destruct b; cbn in Kq; repeat (destruct Kq as [<- |Kq]; [exact I|]); contradiction|].
    split; [cbn in Kd; repeat (destruct Kd as [<- |Kd]; [exact I|]); contradiction|].
    apply precipitation_proper; exact K.
  - cbn in I; repeat (destruct I as [I|I]; [injection I as <- <-; repeat constructor|]); contradiction.
  - cbn in I; repeat (destruct I as [I|I]; [injection I as <- <-; repeat constructor|]); contradiction.
  - cbn in I; repeat (destruct I as [I|I]; [subst ws; repeat constructor|]); contradiction.
  - repeat constructor.
Qed.

Lemma event_value : forall s t prev p, wp_wf prev -> Wp_fromWeatherBeginEndString s t prev = Ok (Some p) ->
  event_text t prev s p.
Proof.
  intros s t prev p Wf H. unfold Wp_fromWeatherBeginEndString in H.
  destruct (regex_match rgx_begin_end s) as [m|] eqn:R; [|discriminate].
  apply regex_match_captures in R. unfold rgx_begin_end in R.
  assert (X : exists ph be h mm, s = ph ++ be ++ h ++ mm /\ mstr m 1 = ph /\ mstr m 2 = be /\ mstr m 3 = h /\ mstr m 4 = mm
    /\ (be = "B" \/ be = "E") /\ (h = "" \/ exists v, numeral 2 h v /\ stoi h = Ok v) /\ exists v, numeral 2 mm v /\ stoi mm = Ok v).
  { clear H. captures R;
      match goal with L : Lang (RCls _) ?x |- _ =>
        assert (B : x = "B" \/ x = "E") by
          (eapply lang_words_all with (P := fun x => seqb x "B" || seqb x "E") in L; [|vm_compute; reflexivity];
           apply orb_prop in L; destruct L as [L|L]; apply seqb_eq in L; auto); clear L end.
    - exists p0, p1, "", q. repeat split; try reflexivity; auto.
      eapply digits_n; [eassumption|reflexivity|reflexivity|vm_compute; reflexivity|lia].
    - exists p0, p1, p2, q. repeat split; try reflexivity; auto.
      + right. eapply digits_n; [eassumption|reflexivity|reflexivity|vm_compute; reflexivity|lia].
      + eapply digits_n; [eassumption|reflexivity|reflexivity|vm_compute; reflexivity|lia]. }
  destruct X as (ph & be & h & mm & Es & M1 & M2 & M3 & M4 & Be & Hh & (minute & Nm & Sm)).
  rewrite M1, M2, M3, M4 in H. clear R M1 M2 M3 M4 m.
  apply bind_ok in H. destruct H as (o & Ho & H). destruct o as [r|]; [|discriminate].
  assert (P : exists q d ws, proper_q q /\ proper_d d /\ Forall proper_w ws /\ List.length ws <= 3
    /\ (exists e, shows r q d ws e)
    /\ (ph = "" /\ (exists e, shows prev q d ws e) /\ Wp_isValid prev = Ok true \/ recognised false q d ws /\ ph = written q d ws)).
  { destruct (sempty ph) eqn:E; cbn [negb] in Ho.
    - apply sempty_eq in E. apply bind_ok in Ho. destruct Ho as (v & Hv & Ho). destruct v; [|discriminate].
      injection Ho as <-. destruct Wf as (q & d & w & e & S & Pq & Pd & Pw & Pe & Len & F).
      exists q, d, w. repeat (split; [assumption|]). split; [eauto|]. left. eauto.
    - apply weather_sound in Ho. destruct Ho as (q & d & ws & Rc & W & S & _).
      pose proof (recognised_proper _ _ _ _ Rc) as (Pq & Pd & Pw). pose proof (recognised_shape _ _ _ _ Rc) as (Len & _).
      exists q, d, ws. repeat (split; [assumption|]). split; [eauto|]. right. auto. }
  destruct P as (q & d & ws & Pq & Pd & Pw & Len & (e & Sq & Sd & Sw & Se) & P).
  apply bind_ok in H. destruct H as (ev & Hev & H). rewrite Sq, Sd, Sw in H.
  apply bind_ok in H. destruct H as (x & Hx & H).
  apply bind_ok in H. destruct H as (mi & Hmi & H). rewrite Sm in Hmi. injection Hmi as <-.
  apply bind_ok in H. destruct H as (hour & Hhr & H). injection H as <-.
  exists ph, ev, h, mm, q, d, ws, hour, minute.
  assert (Eb : be = event_letter ev /\ (ev = Ev_BEGINNING \/ ev = Ev_ENDING)).
  { destruct Be as [-> | ->]; cbn in Hev; injection Hev as <-; auto. }
  destruct Eb as [-> Kev]. split; [exact Es|]. split; [exact Kev|]. split.
  { destruct Hh as [-> |(v & N & S)].
    - cbn in Hhr. injection Hhr as <-. auto.
    - right. destruct h as [|c h]; [destruct N as [N _]; discriminate|]. cbn [sempty negb] in Hhr. rewrite S in Hhr. injection Hhr as <-. exact N. }
  split; [exact Nm|]. split; [exact P|]. split; [|reflexivity].
  apply shows_packv; auto. destruct Kev as [-> | ->]; exact I.
Qed.

(** *** The events of a group *)
Lemma events_snoc : forall t ss ps prev s p,
  events t prev ss ps -> event_text t (List.last ps prev) s p -> events t prev (ss ++ [s])%list (ps ++ [p])%list.
Proof.
  intros t ss ps prev s p E; revert s p; induction E as [prev|prev s0 p0 ss ps X E IH]; intros s p H.
  - cbn in *. apply one_event; [exact H|constructor].
  - cbn [app]. apply one_event; [exact X|]. apply IH. replace (List.last ps p0) with (List.last (p0 :: ps) prev); [exact H|].
    clear. revert p0 prev. induction ps as [|a ps IH]; intros p0 prev; [reflexivity|]. change (List.last (a :: ps) prev = List.last (a :: ps) p0). rewrite (IH a prev), (IH a p0). reflexivity.
Qed.
Lemma last_snoc : forall (A : Type) (l : list A) x d, List.last (l ++ [x])%list d = x.
Proof. intros. apply last_last. Qed.
Lemma concat_snoc : forall ss s, concatenated (ss ++ [s])%list = concatenated ss ++ s.
Proof.
  induction ss as [|a ss IH]; intros s; cbn [app concatenated fold_right]; [apply app_empty_r|].
  change (fold_right String.append "" (ss ++ [s])%list) with (concatenated (ss ++ [s])%list). rewrite IH.
  change (fold_right String.append "" ss) with (concatenated ss). symmetry. apply app_assoc_s.
Qed.
Lemma add_ignoring : forall ps p g, Weather_addIgnoring (mkWeather Wx_EVENT (firstn 20 ps) WxI_NONE) p = Ok g ->
  g = mkWeather Wx_EVENT (firstn 20 (ps ++ [p])%list) WxI_NONE.
Proof.
  intros ps p g H. unfold Weather_addIgnoring, Weather_addWeatherPhenomena in H. cbn [wx_w wx_t wx_inc] in H.
  rewrite firstn_length in H. unfold wSize in H. rewrite firstn_app.
  destruct (Nat.leb_spec 20 (Nat.min 20 (List.length ps))) as [L|L].
  - cbn in H. injection H as <-. replace (20 - List.length ps) with 0 by lia. cbn [firstn]. rewrite app_nil_r. reflexivity.
  - apply bind_ok in H. destruct H as (o & Ho & H). apply bind_ok in Ho. destruct Ho as (l & Hl & Ho). injection Ho as <-.
    injection H as <-. unfold array_push in Hl. rewrite firstn_length in Hl.
    destruct (Nat.ltb_spec (Nat.min 20 (List.length ps)) 20) as [_|]; [|lia]. injection Hl as <-.
    rewrite (firstn_all2 (n := 20 - List.length ps) [p]) by (cbn [List.length]; lia). reflexivity.
Qed.
Lemma event_loop : forall s t n i st ld ss ps r, i + n = slen s -> st <= i ->
  wp_wf (List.last ps WeatherPhenomena_default) ->
  s = concatenated ss ++ sdrop st s -> slen (concatenated ss) = st ->
  events t WeatherPhenomena_default ss ps ->
  r = mkWeather Wx_EVENT (firstn 20 ps) WxI_NONE ->
  forall st' prev' r', Weather_eventLoop s t n i st ld (List.last ps WeatherPhenomena_default) r = Ok (Some (st', prev', r')) ->
  exists ss' ps', s = concatenated ss' ++ sdrop st' s /\ slen (concatenated ss') = st' /\ st' <= slen s
    /\ events t WeatherPhenomena_default ss' ps' /\ prev' = List.last ps' WeatherPhenomena_default
    /\ wp_wf prev' /\ r' = mkWeather Wx_EVENT (firstn 20 ps') WxI_NONE.
Proof.
  intros s t n; induction n as [|n IH]; intros i st ld ss ps r Hi Hst Wf Es Ls Ev Hr st' prev' r' H; cbn [Weather_eventLoop] in H.
  - injection H as <- <- <-. exists ss, ps. repeat (split; [first [assumption|reflexivity|lia]|]). assumption.
  - apply bind_ok in H. destruct H as (c & _ & H). cbv zeta in H.
    destruct (negb (is_digit c) && ld).
    + destruct (Nat.ltb (i - st) 3); [discriminate|].
      apply bind_ok in H. destruct H as (w & Hw & H). unfold substr in Hw.
      destruct (Nat.leb_spec st (slen s)) as [Le|]; [|discriminate]. injection Hw as <-.
      apply bind_ok in H. destruct H as (o & Ho & H). destruct o as [p|]; [|discriminate].
      apply bind_ok in H. destruct H as (r1 & Hr1 & H). subst r. apply add_ignoring in Hr1.
      pose proof (event_value _ _ _ _ Wf Ho) as Ex.
      pose proof (ok_fromWeatherBeginEndString (substring st (i - st) s) t _ Wf) as O. rewrite Ho in O. cbn in O. specialize (O p eq_refl).
      rewrite <- (last_snoc _ ps p WeatherPhenomena_default) in H.
      eapply IH; [| |rewrite last_snoc; exact O| | | |exact Hr1|exact H].
      * lia.
      * lia.
      * instantiate (1 := (ss ++ [substring st (i - st) s])%list).
        rewrite concat_snoc, app_assoc_s. rewrite Es at 1. f_equal.
        rewrite substring_sdrop. replace i with (st + (i - st)) at 2 by lia. rewrite sdrop_add. symmetry. apply substring0_sdrop_app.
      * rewrite concat_snoc, slen_app, Ls, substring_len. lia.
      * apply events_snoc; [exact Ev|exact Ex].
    + eapply IH; [| |exact Wf|exact Es|exact Ls|exact Ev|exact Hr|exact H]; lia.
Qed.

Lemma events_sound : forall s t g, Weather_parseWeatherEvent s t = Ok (Some g) ->
  exists ss ps, ss <> [] /\ s = concatenated ss /\ events t WeatherPhenomena_default ss ps
    /\ g = mkWeather Wx_EVENT (firstn 20 ps) WxI_NONE.
Proof.
  intros s t g H. unfold Weather_parseWeatherEvent in H.
  apply bind_ok in H. destruct H as (o & Ho & H). destruct o as [[[st prev] r]|]; [|discriminate].
  eapply (event_loop s t (slen s) 0 0 false [] []) in Ho; [|reflexivity|lia|exact wp_wf_default|symmetry; apply sdrop_0|reflexivity|constructor|reflexivity].
  destruct Ho as (ss & ps & Es & Ls & Le & Ev & -> & Wf & ->).
  apply bind_ok in H. destruct H as (w & Hw & H). unfold substr_from, substr in Hw.
  destruct (Nat.leb_spec st (slen s)) as [_|]; [|discriminate]. injection Hw as <-.
  apply bind_ok in H. destruct H as (o & Ho & H). destruct o as [p|]; [|discriminate].
  apply bind_ok in H. destruct H as (r1 & Hr1 & H). injection H as <-. apply add_ignoring in Hr1.
  pose proof (event_value _ _ _ _ Wf Ho) as Ex. rewrite substring_from in *.
  exists (ss ++ [sdrop st s])%list, (ps ++ [p])%list. split; [destruct ss; discriminate|].
  split; [rewrite concat_snoc; exact Es|]. split; [apply events_snoc; assumption|exact Hr1].
Qed.
