(** C59: every sequence of words is divided into groups. *)
From Coq Require Import Lia.
From Verif Require Import Prim Lib Regex Float Values Weather Groups1 Groups2 Groups3 Groups4 Parser SpecTokens SpecReads SpecText
  SpecReach SpecBuilt SpecAssembled SpecOpenings SpecSentence.
From Verif Require Import Pf_Tokens Pf_Ok Pf_Caps Pf_Regex Pf_Total Pf_Steps Pf_Kinds Pf_View Pf_Fresh Pf_Words Pf_Built Pf_Grown Pf_OneKind Pf_TimeOnly Pf_Sentence Pf_Reading
  Pf_Assembled Pf_EndAppend.
Local Open Scope string_scope.

Lemma assembled_known : forall part now ws g, Assembled part now ws g -> is_fallback g = false /\ Reachable g.
Proof.
  intros part now ws g H; induction H as [w md p g T I P|ws w md g g' B IH T A].
  - split; [exact (known_first _ _ _ _ _ I P)|eapply Reach_parse; eassumption].
  - destruct IH as [K R]. split; [exact (known_index _ _ (eq_sym (append_index _ _ _ _ _ _ A)) K)|eapply Reach_append; eassumption].
Qed.
(** What the next word does to a group *)
Lemma next_does : forall part now ws g w, Assembled part now ws g ->
  (exists g', Group_append g w part (md_at now) = Ok (g', APPENDED)) \/ (exists g', refuses part now g w g') \/ spoils part now g w.
Proof.
  intros part now ws g w A. destruct (assembled_known _ _ _ _ A) as [_ R]. destruct (append_returns g w part (md_at now) R) as (g' & [ | | ] & E); [left; eauto|right; left; exists g'|right; right].
  - intros md T. rewrite (append_time g w part md (md_at now)) by (rewrite T; reflexivity). exact E.
  - intros md T. exists g'. rewrite (append_time g w part md (md_at now)) by (rewrite T; reflexivity). exact E.
Qed.
Lemma extend : forall part now ws us g, Assembled part now us g -> exists vs rest g2, ws = (vs ++ rest)%list /\ Assembled part now (us ++ vs) g2
  /\ Group_index g2 = Group_index g /\ ((exists g', refuses part now g2 (hd "" rest) g') \/ spoils part now g2 (hd "" rest)).
Proof.
  intros part now. induction ws as [|w ws IH]; intros us g A.
  - exists [], [], g. split; [reflexivity|]. split; [rewrite app_nil_r; exact A|]. split; [reflexivity|]. destruct (next_does part now us g "" A) as [(g' & E)|N]; [|exact N].
    exfalso. exact (end_append _ _ _ _ (proj1 (assembled_known _ _ _ _ A)) E).
  - destruct (next_does part now us g w A) as [(g' & E)|N].
    + destruct (IH (us ++ [w])%list g') as (vs & rest & g2 & -> & A2 & I2 & N); [exact (Assembled_more part now us w (md_at now) g g' A eq_refl E)|].
      exists (w :: vs), rest, g2. rewrite <- app_assoc in A2. split; [reflexivity|]. split; [exact A2|]. split; [|exact N]. rewrite I2. exact (append_index _ _ _ _ _ _ E).
    + exists [], (w :: ws), g. split; [reflexivity|]. split; [rewrite app_nil_r; exact A|]. split; [reflexivity|exact N].
Qed.

(** The words up to the end or to a keyword which has no place between other groups *)
Definition stops (type : ReportType) (part : ReportPart) (w : string) : Prop :=
  exists k, KeywordGroup_parse w part md_default = Ok (Some k) /\ ~ plain_group type (GKeyword k).
Definition divided (type : ReportType) (part : ReportPart) (now : option MetafTime) (words : list string) : Prop :=
  exists items, Sentence type part now "" items /\ words = text_of items
    \/ exists w rest, words = (text_of items ++ w :: rest)%list /\ Sentence type part now w items /\ stops type part w.
Lemma hd_or : forall (l l' : list string) w, hd "" (l ++ w :: l')%list = hd w l.
Proof. intros [|x l] l' w; reflexivity. Qed.
Lemma divided_item : forall type part now ws g rest, Item part now ws (hd "" rest) g -> plain_group type g -> divided type part now rest -> divided type part now (ws ++ rest).
Proof.
  intros type part now ws g rest I P (items & [(H & ->)|(w & rest' & -> & H & X)]); exists ((ws, g) :: items).
  - left. split; [|reflexivity]. apply Sentence_item; assumption.
  - right. exists w, rest'. split; [apply app_assoc|]. split; [|exact X]. rewrite hd_or in I. apply Sentence_item; assumption.
Qed.
Lemma divided_nothing : forall type part now w v c rest, shared part w -> Assembled part now [w] (GVicinity v) -> Assembled part now [w] (GCloud c) ->
  spoils part now (GCloud c) (hd "" rest) -> spoils part now (GVicinity v) (hd "" rest) -> divided type part now rest -> divided type part now (w :: rest).
Proof.
  intros type part now w v c rest Sh Av Ac Sc Sv (items & [(H & ->)|(x & rest' & -> & H & X)]); exists (([], GVicinity v) :: ([w], GUnknown mkUnknown) :: items).
  - left. split; [|reflexivity]. apply (Sentence_nothing type part now "" w items v c); assumption.
  - right. exists x, rest'. split; [reflexivity|]. split; [|exact X]. rewrite hd_or in Sc, Sv. apply (Sentence_nothing type part now x w items v c); assumption.
Qed.
Lemma unknown_plain : forall type u, plain_group type (GUnknown u).
Proof. intros type u k X. discriminate X. Qed.
Lemma plain_dec : forall type g, plain_group type g \/ exists k, g = GKeyword k /\ ~ plain_group type g.
Proof.
  intros type g. destruct g as [[k]| | | | | | | | | | | | | | | | | | | | |]; try (left; intros k X; discriminate X).
  destruct (KwType_eq_dec k Kw_NIL) as [->|N1]; [right; eexists; split; [reflexivity|]; intros X; destruct (X _ eq_refl) as [X' _]; cbn in X'; tauto|].
  destruct (KwType_eq_dec k Kw_CNL) as [->|N2]; [right; eexists; split; [reflexivity|]; intros X; destruct (X _ eq_refl) as [X' _]; cbn in X'; tauto|].
  destruct (KwType_eq_dec k Kw_RMK) as [->|N3]; [right; eexists; split; [reflexivity|]; intros X; destruct (X _ eq_refl) as [X' _]; cbn in X'; tauto|].
  destruct (ReportType_eq_dec type RT_METAR) as [T|T].
  - left. intros k' X. injection X as <-. cbn [kw_t In]. split; [|auto]. intros [?|[?|[?|[]]]]; congruence.
  - destruct (KwType_eq_dec k Kw_MAINTENANCE_INDICATOR) as [->|N4]; [right; eexists; split; [reflexivity|]; intros X; destruct (X _ eq_refl) as [_ X']; cbn in X'; tauto|].
    left. intros k' X. injection X as <-. cbn [kw_t In]. split; [|congruence]. intros [?|[?|[?|[]]]]; congruence.
Qed.
Lemma keyword_time : forall w part md, KeywordGroup_parse w part md = KeywordGroup_parse w part md_default.
Proof. reflexivity. Qed.
(** A keyword is one word. *)
Lemma keyword_word : forall part now ws k, Assembled part now ws (GKeyword k) -> exists w, ws = [w] /\ KeywordGroup_parse w part md_default = Ok (Some k).
Proof.
  intros part now ws k H. inversion H as [w md p g T I P|ws' w md g g' B T A]; subst.
  - exists w. split; [reflexivity|]. apply parsed_inv in P; [exact P|exact I].
  - exfalso. apply appended_inv in A. destruct g; try contradiction. discriminate A.
Qed.
Lemma shared_cloud : forall part now w c, shared part w -> Assembled part now [w] (GCloud c) -> cl_inc c = ClI_OBSCURATION.
Proof.
  intros part now w c [-> I] H. destruct (assembled_split _ _ _ _ H) as (w0 & ws' & p & md & g0 & X & Ip & T & P & C). injection X as <- <-. apply continued_nil in C. subst g0.
  apply parsed_inv in P; [|exact Ip]. cbn [parsed_as] in P. cbn [shared_words In] in I.
  repeat (destruct I as [<-|I]; [vm_compute in P; injection P as <-; reflexivity|]). destruct I.
Qed.
(** A layer of obscuration expects one word, and no more. *)
Lemma layer_two : forall part now g ws g', Continued part now g ws g' -> forall c, g = GCloud c -> cl_inc c = ClI_OBSCURATION \/ cl_inc c = ClI_NONE -> ws <> [] \/ cl_inc c = ClI_NONE ->
  exists c', g' = GCloud c' /\ cl_inc c' = ClI_NONE.
Proof.
  intros part now g ws g' H; induction H as [g|g w md g1 ws g2 T A C IH]; intros c E I N.
  - exists c. destruct N as [N|N]; [congruence|auto].
  - subst g. pose proof A as A'. apply appended_inv in A'. destruct g1 as [| | | | | |c1| | | | | | | | | | | | | | |]; try contradiction. cbn [appended_as] in A'. unfold CloudGroup_append in A'.
    assert (I1 : cl_inc c1 = ClI_NONE).
    { destruct I as [I|I]; rewrite I in A'; [|discriminate A']. unfold Cloud_appendObscuration in A'. destruct (regex_match _ _); [|discriminate A'].
      apply bind_ok in A'. destruct A' as ([h|] & _ & A'); [|discriminate A']. destruct (Cloud_amountFromString _); [|discriminate A']. injection A' as <-. reflexivity. }
    apply (IH c1 eq_refl); auto.
Qed.
Theorem divide : forall type part now words, divided type part now words.
Proof.
  intros type part now words. remember (length words) as n eqn:En. assert (L : (length words <= n)%nat) by lia. clear En. revert words L.
  induction n as [|n IH]; intros words L.
  { destruct words; [|cbn [length] in L; lia]. exists []. left. split; [constructor|reflexivity]. }
  destruct words as [|w ws]; [exists []; left; split; [constructor|reflexivity]|]. cbn [length] in L.
  assert (Rest : forall vs rest, ws = (vs ++ rest)%list -> divided type part now rest).
  { intros vs rest E. apply IH. rewrite E, app_length in L. lia. }
  destruct (first_of w part (md_at now) alternatives (incl_refl _)) as (h & Hh & [(p & Ip & P)|[-> N]]).
  2: { apply (divided_item type part now [w] (GUnknown mkUnknown) ws); [|apply unknown_plain|exact (Rest [] ws eq_refl)].
       apply Item_unread. intros p md Ip T. rewrite (parse_time p w part md (md_at now) Ip) by (rewrite T; reflexivity). exact (N p Ip). }
  assert (D : shared part w \/ ~ shared part w).
  { destruct (in_dec string_dec w shared_words) as [I|I]; [|right; intros [_ X]; contradiction]. destruct (ReportPart_eq_dec part RP_RMK) as [E|E]; [left; split; assumption|right; intros [X _]; contradiction]. }
  destruct D as [Sh|N].
  - destruct (both_kinds_read w part (md_at now) Sh) as [(c & C & _) (v & V & _)].
    assert (Ac : Assembled part now [w] (GCloud c)).
    { apply (Assembled_first part now w (md_at now) (alternative GCloud CloudGroup_parse)); [reflexivity|cbn; tauto|]. unfold alternative. rewrite C. reflexivity. }
    assert (Av : Assembled part now [w] (GVicinity v)).
    { apply (Assembled_first part now w (md_at now) (alternative GVicinity VicinityGroup_parse)); [reflexivity|cbn; tauto|]. unfold alternative. rewrite V. reflexivity. }
    destruct (extend part now ws [w] (GCloud c) Ac) as (vs & rest & g2 & E & A2 & I2 & D). cbn [app] in A2. rewrite E. destruct g2 as [| | | | | |c2| | | | | | | | | | | | | | |]; try discriminate I2.
    destruct D as [(g' & R)|Sp].
    { change (w :: vs ++ rest)%list with ((w :: vs) ++ rest)%list. refine (divided_item type part now (w :: vs) g' rest _ _ (Rest _ _ E)).
      - eapply Item_read; [exact A2|right; exists c2; reflexivity|exact R].
      - intros k X. subst g'. pose proof (append_index _ _ _ _ _ _ (R (md_at now) eq_refl)) as J. discriminate J. }
    assert (vs = []).
    { destruct vs as [|x vs]; [reflexivity|exfalso]. destruct (assembled_split _ _ _ _ A2) as (w0 & ws' & p0 & md0 & g0 & X & Ip0 & T0 & P0 & C0). injection X as <- <-.
      pose proof (continued_index _ _ _ _ _ C0) as J. destruct g0 as [| | | | | |c0| | | | | | | | | | | | | | |]; try discriminate J.
      assert (A0 : Assembled part now [w] (GCloud c0)) by exact (Assembled_first part now w md0 p0 _ T0 Ip0 P0).
      destruct (layer_two _ _ _ _ _ C0 c0 eq_refl (or_introl (shared_cloud _ _ _ _ Sh A0))) as (c' & X & Y); [left; discriminate|]. injection X as <-.
      destruct (Sp (md_at now) eq_refl) as (g' & Z). apply appended_inv in Z. destruct g'; try contradiction. cbn [appended_as] in Z. unfold CloudGroup_append in Z. rewrite Y in Z. discriminate Z. }
    subst vs. cbn [app] in *. clear I2. assert (c2 = c).
    { destruct (assembled_split _ _ _ _ A2) as (w0 & ws' & p0 & md0 & g0 & X & Ip0 & T0 & P0 & C0). injection X as <- <-. apply continued_nil in C0. subst g0.
      rewrite (parse_time p0 w part md0 (md_at now) Ip0) in P0 by (rewrite T0; reflexivity). apply parsed_inv in P0; [|exact Ip0]. cbn [parsed_as] in P0. rewrite P0 in C. injection C as ->. reflexivity. }
    subst c2 rest. clear A2.
    destruct (extend part now ws [w] (GVicinity v) Av) as (us & rest & g2 & E & A2 & I2 & D). cbn [app] in A2. destruct g2 as [| | | | | | | | | | | | | | | | | | |v2| |]; try discriminate I2.
    assert (Hd : hd "" ws = hd (hd "" rest) us) by (rewrite E; destruct us; reflexivity).
    destruct D as [(g' & R)|Sv].
    + pose proof (append_index _ _ _ _ _ _ (R (md_at now) eq_refl)) as J. destruct g' as [| | | | | | | | | | | | | | | | | | |v'| |]; try discriminate J.
      rewrite E. change (w :: us ++ rest)%list with ((w :: us) ++ rest)%list. refine (divided_item type part now (w :: us) (GVicinity v') rest _ _ (Rest _ _ E)); [|intros k X; discriminate X].
      eapply Item_nearby; [exact Sh|exact A2|exact Ac|rewrite <- Hd; exact Sp|exact R].
    + destruct us as [|x us].
      * cbn [app] in E, A2. subst rest. exact (divided_nothing type part now w v2 c ws Sh A2 Ac Sp Sv (Rest [] ws eq_refl)).
      * rewrite E. change (w :: (x :: us) ++ rest)%list with ((w :: x :: us) ++ rest)%list. refine (divided_item type part now (w :: x :: us) _ rest _ (unknown_plain _ _) (Rest _ _ E)).
        eapply Item_nearby_spoiled; [exact Sh|discriminate|exact A2|exact Ac|rewrite <- Hd; exact Sp|exact Sv].
  - assert (A : Assembled part now [w] h) by exact (Assembled_first part now w (md_at now) p h eq_refl Ip P).
    destruct (extend part now ws [w] h A) as (vs & rest & g2 & E & A2 & I2 & D). cbn [app] in A2.
    destruct D as [(g' & R)|Sp].
    + destruct (plain_dec type g') as [Pl|(k & -> & Npl)].
      * rewrite E. change (w :: vs ++ rest)%list with ((w :: vs) ++ rest)%list. refine (divided_item type part now (w :: vs) g' rest _ Pl (Rest _ _ E)). eapply Item_read; [exact A2|left; exact N|exact R].
      * pose proof (append_index _ _ _ _ _ _ (R (md_at now) eq_refl)) as J. destruct g2 as [k2| | | | | | | | | | | | | | | | | | | | |]; try discriminate J.
        destruct (keyword_word _ _ _ _ A2) as (w0 & X & K). injection X as <- ->. cbn [app] in E. subst rest.
        assert (k2 = k). { pose proof (R (md_at now) eq_refl) as Y. injection Y as ->. reflexivity. } subst k2.
        exists []. right. exists w, ws. split; [reflexivity|]. split; [constructor|]. exists k. auto.
    + rewrite E. change (w :: vs ++ rest)%list with ((w :: vs) ++ rest)%list. refine (divided_item type part now (w :: vs) _ rest _ (unknown_plain _ _) (Rest _ _ E)).
      eapply Item_spoiled; [exact A2|exact N|exact Sp].
Qed.
