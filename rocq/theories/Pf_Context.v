(** C79: words which are understood in one report are understood in every report. *)
From Coq Require Import Lia Bool.
From Verif Require Import Prim Lib Regex Float Values Weather Groups1 Groups2 Groups3 Groups4 Parser
  SpecRegex SpecNumeral SpecTokens SpecReads SpecText SpecReach SpecBuilt SpecAppend SpecAssembled SpecOpenings SpecSentence SpecLongest.
From Verif Require Import Pf_Regex Pf_Ok Pf_Caps Pf_Total Pf_Kinds Pf_Steps Pf_View Pf_Fresh Pf_Words Pf_EndAppend Pf_Formats Pf_Trend Pf_Refuse Pf_Same Pf_Settled Pf_Built Pf_Grown Pf_OneKind Pf_TimeOnly
  Pf_Openings Pf_OpeningWords Pf_Sentence Pf_Division Pf_Disjoint Pf_Grammar Pf_Assembled Pf_Said Pf_Local.
From Verif Require SpecVisibility Pf_VisTexts Pf_Longest.
Import SpecVisibility(may_end).
Local Open Scope string_scope.

(** The text of a group; words with which no group begins *)
Definition Whole (part : ReportPart) (now : option MetafTime) (ws : list string) : Prop := exists g, Assembled part now ws g /\ refusable g.
Definition Dead (part : ReportPart) (now : option MetafTime) (ws : list string) : Prop := forall more g, ~ Assembled part now (ws ++ more) g.
Lemma dead_more : forall part now ws us, Dead part now ws -> Dead part now (ws ++ us).
Proof. intros part now ws us D more g A. rewrite <- app_assoc in A. exact (D _ _ A). Qed.
Lemma dead_whole : forall part now ws, Dead part now ws -> ~ Whole part now ws.
Proof. intros part now ws D (g & A & _). apply (D [] g). rewrite app_nil_r. exact A. Qed.
Lemma unread_dead : forall part w md g, GroupParser_parse w part md = Ok g -> is_fallback g = true -> Dead part (md_reportTime md) [w].
Proof.
  intros part w md g P F more h A. apply assembled_split in A. destruct A as (w' & ws' & p & md' & h0 & E & Ip & T & Q & _). injection E as <- <-.
  rewrite (parse_time p w part md' md Ip) in Q by exact T.
  destruct (first_of w part md alternatives (incl_refl _)) as (g' & G & [(q & Iq & X)|[-> N]]).
  - unfold GroupParser_parse in P. rewrite G in P. injection P as ->. apply parsed_inv in X; [|exact Iq]. destruct g; try discriminate F. destruct X.
  - pose proof (N p Ip) as X. unfold rejects in X. rewrite X in Q. discriminate Q.
Qed.
Lemma read_assembled : forall part w md g, GroupParser_parse w part md = Ok g -> is_fallback g = false -> Assembled part (md_reportTime md) [w] g.
Proof.
  intros part w md g P F. apply GroupParser_parse_inv in P. destruct P as [[-> |P] _]; [discriminate F|]. apply parsed_first in P. destruct P as (p & I & P).
  exact (Assembled_first part _ w md p g eq_refl I P).
Qed.
Lemma assembled_built : forall part now ws g, Assembled part now ws g -> exists w g0 md, parsed_as g0 w part md /\ hd "" ws = w /\ Group_index g0 = Group_index g.
Proof.
  intros part now ws g A. apply assembled_split in A. destruct A as (w & ws' & p & md & g0 & -> & Ip & T & P & C). exists w, g0, md.
  split; [exact (parsed_inv _ _ _ _ _ Ip P)|]. split; [reflexivity|]. symmetry. exact (continued_index _ _ _ _ _ C).
Qed.
(** ** A range of values is no beginning of a group *)
Definition miles_re : re := rx "([PM])?(\d?\d)(?:/(\d?\d))?".
Definition range_re : re := RSeq miles_re (RSeq (RCls [("V", "V")]%char) miles_re).
Lemma range_apart : forallb (fun i => apart range_re (opening RP_RMK i)) (List.seq 0 21) = true.
Proof. vm_compute. reflexivity. Qed.
Lemma range_unread : forall part ws s, Wrong_range part ws s -> s <> "" /\ forall md g, GroupParser_parse s part md = Ok g -> is_fallback g = true.
Proof.
  intros part ws s (-> & w & x & a & b & low & high & _ & _ & -> & L & H).
  assert (La : Lang miles_re a) by (inversion L; subst; apply remark_mile_format; eexists; apply Pf_VisTexts.miles_remark; eassumption).
  assert (Lb : Lang miles_re b) by (inversion H; subst; apply remark_mile_format; eexists; apply Pf_VisTexts.miles_remark; eassumption).
  split.
  { intros E. apply (f_equal slen) in E. rewrite !slen_app in E. cbn in E. lia. }
  intros md g P. apply GroupParser_parse_inv in P. destruct P as [[-> |P] _]; [reflexivity|exfalso].
  pose proof (index_bound _ _ _ _ P) as B. apply opens in P.
  pose proof (proj1 (forallb_forall _ _) range_apart (Group_index g)) as A. cbv beta in A.
  refine (apart_sound _ _ _ (A _) _ P); [apply in_seq; lia|].
  apply L_seq; [exact La|]. apply (L_seq _ _ "V" b); [apply L_cls; reflexivity|exact Lb].
Qed.
(** ** A word which spoils a group *)
Lemma spoiled_part : forall g s part md x, Reachable g -> Group_append g s part md = Ok (x, GROUP_INVALIDATED) ->
  active g = false /\ forall s' p q md', Group_append g s' p md' = Group_append g s' q md'.
Proof.
  intros g s part md x R A. destruct (passive_invalidated _ _ _ _ _ R A) as (B & C & _). split; [exact B|]. intros s' p q md'.
  destruct g; try reflexivity; cbn [Group_index] in C; [lia|]. cbn [Group_append]. f_equal.
  apply appended_inv in A. destruct x; try contradiction. cbn [appended_as] in A. unfold WeatherGroup_append in *. destruct (wx_inc g); try reflexivity. peel A; discriminate.
Qed.
Lemma spoiled_in : forall part now ws g s part' md x, Assembled part now ws g -> Group_append g s part' md = Ok (x, GROUP_INVALIDATED) -> in_report part.
Proof.
  intros part now ws g s part' md x A E. destruct (assembled_known _ _ _ _ A) as [_ R]. destruct (spoiled_part _ _ _ _ _ R E) as [B K].
  destruct (assembled_split _ _ _ _ A) as (w & ws' & p & md0 & g0 & -> & Ip & T & P & C). apply parsed_inv in P; [|exact Ip].
  pose proof (continued_index _ _ _ _ _ C) as J.
  assert (X : part = RP_HEADER \/ part = RP_UNKNOWN -> False).
  { intros X. pose proof (header_passive _ _ _ _ X P) as Y.
    assert (N : g0 = g).
    { inversion C as [|h w1 md1 h1 ws1 h2 T1 A1 C1]; [reflexivity|exfalso]. subst. rewrite (active_append _ _ _ _ (reach_parsed _ _ _ _ P) Y) in A1. discriminate A1. }
    rewrite N in Y. congruence. }
  unfold in_report. destruct part; [destruct (X (or_intror eq_refl))|destruct (X (or_introl eq_refl))|auto|auto|auto].
Qed.
Lemma sole : forall part now ws g h, Assembled part now ws g -> Assembled part now ws h -> ~ shared part (hd "" ws) \/ (2 <= length ws)%nat -> g = h.
Proof.
  intros part now ws g h G H S. destruct (Pf_Local.assembled_same _ _ _ _ _ G H) as [E|[Sh K]]; [exact E|exfalso].
  destruct S as [S|S]; [exact (S Sh)|].
  destruct K as [[X Y]|[X Y]]; destruct g; try discriminate X; destruct h; try discriminate Y.
  - destruct (two_kinds _ _ _ _ _ G H Sh) as (w & W & _). rewrite W in S. cbn in S. lia.
  - destruct (two_kinds _ _ _ _ _ H G Sh) as (w & W & _). rewrite W in S. cbn in S. lia.
Qed.
(** Nothing which these words make takes the next one. *)
Lemma none_takes : forall part now ws s, ws <> [] -> (forall h, Assembled part now ws h -> exists x, Group_append h s part (md_at now) = Ok (x, GROUP_INVALIDATED)) -> Dead part now (ws ++ [s]).
Proof.
  intros part now ws s N H more g A. destruct (Pf_Longest.assembled_prefix part now more (ws ++ [s])%list g) as (h & B & _); [destruct ws; discriminate|exact A|].
  inversion B as [w' md' p' h' T' I' E' Y|ws' w' md' h0 h' A' T' E' Y]; subst.
  - destruct ws as [|? [|]]; [contradiction|discriminate|discriminate].
  - apply app_inj_tail in Y. destruct Y as [-> ->]. destruct (H _ A') as (x & X). rewrite (append_time h0 s part md' (md_at (md_reportTime md'))) in E' by reflexivity. rewrite X in E'. discriminate E'.
Qed.
Lemma refusable_end : forall g part, (forall s' p q md', Group_append g s' p md' = Group_append g s' q md') -> refusable g -> may_end part g.
Proof. intros g part N (s & part' & md & h & A). exists s, md, h. rewrite (N _ part part' md). exact A. Qed.
Lemma spoiled_dead : forall part ws g s part' md x, Assembled part (md_reportTime md) ws g -> ~ shared part (hd "" ws) \/ (2 <= length ws)%nat ->
  Group_append g s part' md = Ok (x, GROUP_INVALIDATED) ->
  Dead part (md_reportTime md) (ws ++ [s]) /\ (~ Whole part (md_reportTime md) ws \/ Wrong_range part ws s).
Proof.
  intros part ws g s part' md x A S E. destruct (assembled_known _ _ _ _ A) as [_ R]. destruct (spoiled_part _ _ _ _ _ R E) as [_ K].
  rewrite (K _ part' part md) in E.
  split.
  - apply none_takes; [exact (Pf_Longest.assembled_nonempty _ _ _ _ A)|]. intros h H. rewrite <- (sole _ _ _ _ _ A H S). exists x.
    rewrite (append_time g s part (md_at (md_reportTime md)) md) by reflexivity. exact E.
  - destruct (Pf_Longest.spoils_why part (md_reportTime md) ws g s (spoiled_in _ _ _ _ _ _ _ _ A E) A) as [N|W]; [|left|right; exact W].
    + intros md' T. exists x. rewrite (append_time g s part md' md) by exact T. exact E.
    + intros (h & H & Rf). rewrite <- (sole _ _ _ _ _ A H S) in Rf. exact (N (refusable_end _ part K Rf)).
Qed.
(** ** FG and the like *)
Lemma nearby_waits : forall part now w v, shared part w -> Assembled part now [w] (GVicinity v) -> vc_inc v = VcI_EXPECT_DIST_DIR1.
Proof.
  intros part now w v [-> I] H. destruct (assembled_split _ _ _ _ H) as (w0 & ws' & p & md & g0 & X & Ip & T & P & C). injection X as <- <-. apply continued_nil in C. subst g0.
  apply parsed_inv in P; [|exact Ip]. cbn [parsed_as] in P. cbn in I.
  repeat (destruct I as [<-|I]; [vm_compute in P; injection P as <-; reflexivity|]). destruct I.
Qed.
Lemma shared_unfinished : forall part now w, shared part w -> ~ Whole part now [w].
Proof.
  intros part now w S (g & A & s & part' & md & h & E).
  destruct (both_kinds_read w part (md_at now) S) as [(c & C & _) _].
  assert (Ac : Assembled part now [w] (GCloud c)).
  { apply (Assembled_first part now w (md_at now) (alternative GCloud CloudGroup_parse)); [reflexivity|cbn; tauto|]. unfold alternative. rewrite C. reflexivity. }
  destruct (Pf_Local.assembled_same _ _ _ _ _ A Ac) as [->|[_ K]].
  - exact (not_obscured c _ eq_refl (or_intror (ex_intro _ s (ex_intro _ part' (ex_intro _ md (ex_intro _ h E))))) (shared_cloud _ _ _ _ S Ac)).
  - destruct K as [[_ K]|[K _]]; [discriminate K|]. destruct g; try discriminate K. pose proof (nearby_waits _ _ _ _ S A) as W.
    apply appended_inv in E. destruct h; try contradiction. cbn [appended_as] in E. unfold VicinityGroup_append in E. rewrite W in E. cbv zeta in E. peel E; discriminate.
Qed.
Lemma shared_dead : forall part md w c v s part' x part2 y, shared part w -> Assembled part (md_reportTime md) [w] (GCloud c) -> Assembled part (md_reportTime md) [w] (GVicinity v) ->
  Group_append (GCloud c) s part' md = Ok (x, GROUP_INVALIDATED) -> Group_append (GVicinity v) s part2 md = Ok (y, GROUP_INVALIDATED) ->
  Dead part (md_reportTime md) [w; s].
Proof.
  intros part md w c v s part' x part2 y S C V Ec Ev. apply (none_takes part (md_reportTime md) [w] s); [discriminate|]. intros h H.
  change (Group_append (GCloud c) s part md = Ok (x, GROUP_INVALIDATED)) in Ec. change (Group_append (GVicinity v) s part md = Ok (y, GROUP_INVALIDATED)) in Ev.
  rewrite (append_time _ _ _ md (md_at (md_reportTime md))) in Ec by reflexivity. rewrite (append_time _ _ _ md (md_at (md_reportTime md))) in Ev by reflexivity.
  destruct (Pf_Local.assembled_same _ _ _ _ _ H C) as [->|[_ K]]; [eauto|].
  destruct (Pf_Local.assembled_same _ _ _ _ _ H V) as [->|[_ K']]; [eauto|].
  cbn [Group_index] in K, K'. lia.
Qed.
(** ** The groups while the report is read *)
Definition texts (i : GroupInfo) : list string := words_of (gi_rawString i).
Definition dead (now : option MetafTime) (i : GroupInfo) (us : list string) : Prop := Dead (gi_reportPart i) now (texts i ++ us).
(** Groups before the last one *)
Definition past (now : option MetafTime) (i : GroupInfo) : Prop := is_fallback (gi_group i) = true -> ~ Whole (gi_reportPart i) now (texts i).
(** The last one, after a word was read *)
Definition last_ok (now : option MetafTime) (i : GroupInfo) : Prop :=
  is_fallback (gi_group i) = true /\ dead now i []
  \/ is_fallback (gi_group i) = false /\ Assembled (gi_reportPart i) now (texts i) (gi_group i)
     /\ (shared (gi_reportPart i) (hd "" (texts i)) -> (2 <= length (texts i))%nat \/ Group_index (gi_group i) = 6%nat /\ texts i = [gi_rawString i]).
(** The one before the last: even if the last one turns out not to be understood and becomes a part of it *)
Definition before_ok (now : option MetafTime) (w : string) (l : list GroupInfo) : Prop :=
  match l with j :: _ => is_fallback (gi_group j) = true -> dead now j [w] | [] => True end.
Definition list_ok (now : option MetafTime) (l : list GroupInfo) : Prop :=
  match l with i :: l => last_ok now i /\ (is_fallback (gi_group i) = false -> before_ok now (hd "" (texts i)) l) /\ Forall (past now) l | [] => True end.
(** The last one, when the word [s] was not taken by it, in the part [P] of the report *)
Definition left_ok (now : option MetafTime) (P : ReportPart) (s : string) (i : GroupInfo) : Prop :=
  is_fallback (gi_group i) = false \/ dead now i []
  \/ dead now i [s] /\ (~ Whole (gi_reportPart i) now (texts i)
     \/ s <> "" /\ gi_reportPart i = P /\ in_report P /\ forall md g, GroupParser_parse s P md = Ok g -> is_fallback g = true).
Definition mid_ok (now : option MetafTime) (P : ReportPart) (s : string) (l : list GroupInfo) : Prop :=
  match l with i :: l => left_ok now P s i /\ Forall (past now) l | [] => True end.

Lemma dead_nil : forall now i us, dead now i [] -> dead now i us.
Proof. intros now i us D. unfold dead in *. rewrite app_nil_r in D. apply dead_more. exact D. Qed.
Lemma dead_past : forall now i, dead now i [] -> past now i.
Proof. intros now i D _. unfold dead in D. rewrite app_nil_r in D. apply dead_whole. exact D. Qed.
Lemma mid_past : forall now P l, mid_ok now P "" l -> Forall (past now) l.
Proof.
  intros now P [|i l] M; [constructor|]. destruct M as [[F|[D|[_ [W|[X _]]]]] M]; [..|contradiction]; constructor; try exact M.
  - intros X. congruence.
  - apply dead_past. exact D.
  - intros _. exact W.
Qed.
(** A new word *)
Lemma add_ok : forall P s l g part md, mid_ok (md_reportTime md) P s l -> token s -> GroupParser_parse s part md = Ok g -> (in_report P -> part = P) ->
  list_ok (md_reportTime md) (addGroupToResult l g part s).
Proof.
  intros P s l g part md M T G Pp. set (now := md_reportTime md) in *.
  assert (Lg : last_ok now (mkGroupInfo g part s)).
  { unfold last_ok, dead, texts. cbn [gi_group gi_reportPart gi_rawString]. rewrite (words_token _ T). destruct (is_fallback g) eqn:F.
    - left. split; [reflexivity|]. exact (unread_dead _ _ _ _ G F).
    - right. split; [reflexivity|]. split; [exact (read_assembled _ _ _ _ G F)|]. cbn [hd]. intros Sh. right.
      destruct (both_kinds_read s part md Sh) as [(c & _ & C) _]. rewrite C in G. injection G as <-. split; reflexivity. }
  assert (Tx : texts (mkGroupInfo g part s) = [s]) by exact (words_token _ T).
  destruct l as [|i l]; cbn [addGroupToResult].
  { split; [exact Lg|]. split; [intros _; exact I|constructor]. }
  destruct M as [Mi Ml]. destruct (is_fallback g && is_fallback (gi_group i)) eqn:F.
  - apply andb_prop in F. destruct F as [Fg Fi].
    assert (D : dead now i [s]) by (destruct Mi as [X|[D|[D _]]]; [congruence|apply dead_nil; exact D|exact D]).
    split; [|split; [|exact Ml]].
    + left. split; [exact Fi|]. unfold dead, texts in *. cbn [gi_group gi_reportPart gi_rawString]. rewrite words_app, (words_token _ T), app_nil_r. exact D.
    + cbn [gi_group]. congruence.
  - split; [exact Lg|]. rewrite Tx. cbn [hd gi_group]. split.
    + intros Fg Fi. destruct Mi as [X|[D|[D _]]]; [congruence|apply dead_nil; exact D|exact D].
    + constructor; [|exact Ml]. intros Fi. destruct Mi as [X|[D|[D W]]]; [congruence|exact (dead_past _ _ D Fi)|]. destruct W as [W|(_ & Ep & In & U)]; [exact W|exfalso].
      rewrite (Pp In) in G. apply U in G. rewrite G, Fi in F. discriminate F.
Qed.
(** A group of one word *)
Lemma reread : forall part w g g' md r, Assembled part (md_reportTime md) [w] g -> Group_index g' = Group_index g ->
  GroupParser_reparse w part md g' = Ok r -> is_fallback r = false -> (4 <= Group_index g)%nat ->
  shared part w /\ Assembled part (md_reportTime md) [w] r /\ (Group_index g = 6%nat /\ Group_index r = 19%nat \/ Group_index g = 19%nat /\ Group_index r = 6%nat).
Proof.
  intros part w g g' md r A J P F B. apply GroupParser_reparse_inv in P. destruct P as [-> |[P X]]; [discriminate F|]. rewrite J in X.
  assert (Ar : Assembled part (md_reportTime md) [w] r) by (apply parsed_first in P; destruct P as (p & I & P); exact (Assembled_first part _ w md p r eq_refl I P)).
  destruct (Pf_Local.assembled_same _ _ _ _ _ A Ar) as [->|[S K]]; [|auto]. contradiction.
Qed.
(** A word offered to the last group *)
Lemma offer_ok : forall i l s part md l' b, list_ok (md_reportTime md) (i :: l) -> good i -> gi_rawString i <> "" -> word s ->
  (s <> "" -> part = gi_reportPart i \/ active (gi_group i) = true) ->
  appendToLastResultGroup (i :: l) s part md = Ok (l', b) ->
  if b then list_ok (md_reportTime md) l' else mid_ok (md_reportTime md) part s l'.
Proof.
  intros i l s part md l' b (Li & Bi & Pl) Go N Wd Hp E. set (now := md_reportTime md) in *. cbn [appendToLastResultGroup] in E.
  destruct Li as [[F D]|(F & A & Sh)]; rewrite F in E.
  { apply ok_pair_inj in E; destruct E as [-> ->]. split; [right; left; exact D|exact Pl]. }
  specialize (Bi F). destruct (assembled_known _ _ _ _ A) as [_ R].
  assert (Ps : forall x, Group_append (gi_group i) s part md = Ok (x, APPENDED) -> token s /\ part = gi_reportPart i).
  { intros x X. destruct Wd as [-> |T]; [destruct (end_append _ _ _ _ F X)|]. split; [exact T|].
    destruct (Hp (proj1 T)) as [Y|Y]; [exact Y|]. rewrite (active_append _ _ _ _ R Y) in X. discriminate X. }
  apply bind_ok in E. destruct E as ([x a] & X & E). destruct a.
  - (* taken *) apply ok_pair_inj in E; destruct E as [-> ->]. destruct (Ps _ X) as [T ->].
    assert (Tx : texts (mkGroupInfo x (gi_reportPart i) (gi_rawString i ++ String " " s)) = (texts i ++ [s])%list) by (unfold texts; cbn [gi_rawString]; rewrite words_app, (words_token _ T); reflexivity).
    assert (Ne : texts i <> []) by exact (Pf_Longest.assembled_nonempty _ _ _ _ A).
    assert (Ax : Assembled (gi_reportPart i) now (texts i ++ [s]) x) by exact (Assembled_more _ _ _ _ _ _ _ A eq_refl X).
    split; [|split; [|exact Pl]].
    + right. rewrite Tx. cbn [gi_group gi_reportPart]. split; [exact (proj1 (assembled_known _ _ _ _ Ax))|]. split; [exact Ax|]. intros _. left.
      rewrite app_length. destruct (texts i); [contradiction|]. cbn. lia.
    + intros _. rewrite Tx. destruct (texts i); [contradiction|exact Bi].
  - (* refused *) apply ok_pair_inj in E; destruct E as [-> ->]. split; [left|exact Pl]. cbn [gi_group].
    pose proof (append_index _ _ _ _ _ _ X) as J. destruct (gi_group i), x; try reflexivity; discriminate.
  - (* spoiled *) apply bind_ok in E. destruct E as (r & Rp & E). cbv zeta in E.
    pose proof (append_index _ _ _ _ _ _ X) as J. destruct (passive_invalidated _ _ _ _ _ R X) as (Pa & Bd & _).
    assert (Rep : s <> "" -> part = gi_reportPart i) by (intros Ns; destruct (Hp Ns) as [Y|Y]; [exact Y|congruence]).
    assert (Dc : shared (gi_reportPart i) (hd "" (texts i)) \/ ~ shared (gi_reportPart i) (hd "" (texts i))).
    { destruct (in_dec string_dec (hd "" (texts i)) shared_words) as [Q|Q]; [|right; intros [_ Z]; contradiction]. destruct (ReportPart_eq_dec (gi_reportPart i) RP_RMK) as [Z|Z]; [left; split; assumption|right; intros [Y _]; contradiction]. }
    destruct (is_fallback r) eqn:Fr.
    + apply ok_pair_inj in E; destruct E as [-> ->].
      assert (So : ~ shared (gi_reportPart i) (hd "" (texts i)) \/ (2 <= length (texts i))%nat).
      { destruct Dc as [Y|Y]; [|left; exact Y]. destruct (Sh Y) as [Z|[Z Tx]]; [right; exact Z|exfalso].
        rewrite Tx in Y. cbn [hd] in Y. destruct (both_kinds_read _ _ md Y) as [_ (v & _ & V)]. destruct (gi_group i) as [| | | | | |c| | | | | | | | | | | | | | |]; try discriminate Z.
        rewrite (reparse_index _ _ _ x (GCloud c)) in Rp by exact J. rewrite V in Rp. injection Rp as <-. discriminate Fr. }
      destruct (spoiled_dead _ _ _ _ _ _ _ A So X) as [D W]. fold now in D, W.
      assert (Lu : left_ok now part s (mkGroupInfo r (gi_reportPart i) (gi_rawString i))).
      { right. right. split; [exact D|]. destruct W as [W|W]; [left; exact W|right]. destruct (range_unread _ _ _ W) as [Ns U]. cbn [gi_reportPart].
        split; [exact Ns|]. split; [symmetry; exact (Rep Ns)|]. rewrite (Rep Ns). split; [exact (spoiled_in _ _ _ _ _ _ _ _ A X)|exact U]. }
      destruct l as [|j l]; cbn [addGroupToResult]; [split; [exact Lu|constructor]|].
      rewrite Fr. cbn [andb]. destruct (is_fallback (gi_group j)) eqn:Fj; [|split; [exact Lu|exact Pl]].
      split; [|exact (Forall_inv_tail Pl)]. right. left. specialize (Bi Fj).
      unfold dead, texts in *. cbn [gi_group gi_reportPart gi_rawString]. rewrite words_app, app_nil_r.
      pose proof (Pf_Longest.assembled_nonempty _ _ _ _ A) as Ne. destruct (words_of (gi_rawString i)) as [|w ws]; [contradiction|]. cbn [hd] in Bi.
      change (w :: ws) with ([w] ++ ws)%list. rewrite app_assoc. apply dead_more. exact Bi.
    + destruct Go as [Go|Go]; [contradiction|].
      assert (Tx : texts i = [gi_rawString i]).
      { destruct (plain_or_spaced (gi_rawString i)) as [P|P]; [exact (plain_words _ P N)|exfalso]. rewrite (reparse_spaced _ _ _ _ _ _ _ _ Go P F X Rp) in Fr. discriminate Fr. }
      rewrite Tx in *. cbn [hd length] in *.
      destruct (reread _ _ _ _ _ _ A J Rp Fr Bd) as (S1 & Ar & K). destruct (Sh S1) as [Z|[Z _]]; [lia|]. destruct K as [[_ K]|[K _]]; [|congruence].
      assert (Ea : addGroupToResult l r (gi_reportPart i) (gi_rawString i) = mkGroupInfo r (gi_reportPart i) (gi_rawString i) :: l).
      { destruct l; cbn [addGroupToResult]; rewrite ?Fr; reflexivity. }
      rewrite Ea in E. cbn [appendToLastResultGroup_noReparse gi_group gi_reportPart gi_rawString] in E. rewrite Fr in E.
      apply bind_ok in E. destruct E as ([y a] & Y & E). destruct a; apply ok_pair_inj in E; destruct E as [-> ->].
      * (* nearby *) assert (T : token s) by (destruct Wd as [-> |T]; [destruct (end_append _ _ _ _ Fr Y)|exact T]).
        rewrite (Rep (proj1 T)) in Y.
        assert (Ty : texts (mkGroupInfo y (gi_reportPart i) (gi_rawString i ++ String " " s)) = [gi_rawString i; s]) by (unfold texts in *; cbn [gi_rawString]; rewrite words_app, (words_token _ T), Tx; reflexivity).
        assert (Ay : Assembled (gi_reportPart i) now ([gi_rawString i] ++ [s]) y) by exact (Assembled_more _ _ _ _ _ _ _ Ar eq_refl Y).
        split; [|split; [|exact Pl]].
        -- right. rewrite Ty. cbn [gi_group gi_reportPart]. split; [exact (proj1 (assembled_known _ _ _ _ Ay))|]. split; [exact Ay|]. intros _. left. cbn. lia.
        -- intros _. rewrite Ty. exact Bi.
      * split; [left|exact Pl]. cbn [gi_group]. pose proof (append_index _ _ _ _ _ _ Y) as Jy. rewrite K in Jy. destruct y; try reflexivity; discriminate Jy.
      * pose proof (append_index _ _ _ _ _ _ Y) as Jy. assert (Fy : is_fallback y = false) by (rewrite K in Jy; destruct y; try reflexivity; discriminate Jy).
        cbn [addGroupToResult is_fallback andb gi_group]. rewrite Fy.
        destruct (gi_group i) as [| | | | | |c| | | | | | | | | | | | | | |]; try discriminate Z. destruct r as [| | | | | | | | | | | | | | | | | | |v| |]; try discriminate K.
        split; [|constructor; [cbn [past gi_group]; intros Q; cbn [gi_group] in Q; congruence|exact Pl]].
        right. right. unfold dead, texts in *. cbn [gi_group gi_reportPart gi_rawString]. rewrite Tx.
        split; [exact (shared_dead _ _ _ _ _ _ _ _ _ _ S1 A Ar X Y)|left; exact (shared_unfinished _ _ _ S1)].
Qed.
(** ** The time of the report becomes known in the header *)
Lemma header_any : forall now now' ws g, Assembled RP_HEADER now ws g -> Assembled RP_HEADER now' ws g.
Proof.
  intros now now' ws g A.
  assert (X : Assembled RP_HEADER now' ws g /\ Group_index g <> 4%nat); [|exact (proj1 X)].
  induction A as [w md p g T I P|ws w md g g' A [IH N] T E].
  - apply parsed_inv in P; [|exact I]. split; [exact (header_first _ _ _ _ P)|exact (header_index _ _ _ P)].
  - split; [|rewrite (append_index _ _ _ _ _ _ E); exact N]. rewrite (header_append _ _ _ md (md_at now') N) in E. exact (Assembled_more RP_HEADER now' ws w (md_at now') g g' IH eq_refl E).
Qed.
Lemma header_dead : forall now now' ws, Dead RP_HEADER now ws -> Dead RP_HEADER now' ws.
Proof. intros now now' ws D more g A. exact (D more g (header_any now' now _ _ A)). Qed.
Lemma header_whole : forall now now' ws, Whole RP_HEADER now ws -> Whole RP_HEADER now' ws.
Proof. intros now now' ws (g & A & R). exists g. split; [exact (header_any now now' _ _ A)|exact R]. Qed.
Lemma header_list : forall now now' l, headers l -> list_ok now l -> list_ok now' l.
Proof.
  intros now now' [|i l] H L; [exact I|]. pose proof (Forall_inv H) as Hi. pose proof (Forall_inv_tail H) as Hl. cbv beta in Hi. destruct L as (Li & Bi & Pl). split; [|split].
  - unfold last_ok, dead in *. rewrite Hi in *. destruct Li as [[F D]|(F & A & S)]; [left; split; [exact F|exact (header_dead _ _ _ D)]|right]. split; [exact F|]. split; [exact (header_any _ _ _ _ A)|exact S].
  - intros F. specialize (Bi F). destruct l as [|j l]; [exact I|]. pose proof (Forall_inv Hl) as Hj. cbv beta in Hj. intros Fj. specialize (Bi Fj). unfold dead in *. rewrite Hj in *. exact (header_dead _ _ _ Bi).
  - clear Li Bi H Hi i. induction l as [|j l IH]; [constructor|]. pose proof (Forall_inv Hl) as Hj. pose proof (Forall_inv Pl) as Pj. cbv beta in Hj. constructor; [|exact (IH (Forall_inv_tail Pl) (Forall_inv_tail Hl))].
    unfold past in *. rewrite Hj in *. intros F W. exact (Pj F (header_whole _ _ _ W)).
Qed.
Lemma list_steps : forall limit used p, Steps limit used p -> Forall token used -> list_ok (md_reportTime (ps_md p)) (ps_groups p).
Proof.
  intros limit. refine (steps_induction limit (fun used p => Forall token used -> list_ok (md_reportTime (ps_md p)) (ps_groups p)) _ _).
  - intros _. exact I.
  - intros used p s q S I Er E St Iq IH F. pose proof F as F0. apply Forall_app in F. destruct F as [F1 F2]. inv F2.
    specialize (IH F1). destruct (good_steps _ _ _ S F1) as [Go T]. destruct (grown_steps _ _ _ S F1) as [Hd _]. unfold parse_step in E. cbv zeta in E.
    apply bind_ok in E. destruct E as ([l b] & A & E).
    assert (G : if b then list_ok (md_reportTime (ps_md p)) l else mid_ok (md_reportTime (ps_md p)) (getReportPart (ps_status p)) s l).
    { destruct (ps_groups p) as [|i l0] eqn:Eg.
      - cbn in A. injection A as <- <-. exact Logic.I.
      - refine (offer_ok i l0 s _ _ l b IH (Forall_inv Go) T (or_intror H1) _ A). intros _. exact (part_of_last p i l0 I Er Eg). }
    destruct b; cbn [negb] in E.
    + destruct (count_group limit (ps_count p) (ps_status p)) as [n st] eqn:Ec; injection E as <-. exact G.
    + apply bind_ok in E; destruct E as ([[[g part] n] st] & L & E).
      apply bind_ok in E; destruct E as (md & U & E); injection E as <-. cbn [ps_groups ps_md].
      apply loop_fresh in L; [|apply I | exact Er]; destruct L as (st0 & n0 & Fr & Ec & _).
      assert (X : list_ok (md_reportTime (ps_md p)) (addGroupToResult l g part s)).
      { destruct Fr as [g Gp _|g0 g _ Ts _ _ _ _ Gp]; refine (add_ok (getReportPart (ps_status p)) s l g _ (ps_md p) G H1 Gp _); [reflexivity|].
        unfold getReportPart. rewrite Ts. intros [X|[X|X]]; discriminate X. }
      destruct (time_kept _ _ _ U) as [-> |[t Et]]; [exact X|].
      refine (header_list _ _ _ _ X). destruct Fr as [g Gp _|g0 g _ _ _ _ _ _ Gp]; subst g; pose proof (report_time_header _ _ _ _ Gp) as Hp; [|discriminate Hp].
      rewrite Hp. apply headers_add. exact (headers_append _ _ _ _ _ _ (Hd Hp) A).
Qed.
(** Unknown groups of the result are no text of a group. *)
Lemma result_past : forall sgn report limit r, parse sgn report limit = Ok r -> Forall (past (md_reportTime (pr_metadata r))) (pr_groups r).
Proof.
  intros sgn report limit r E; destruct (parse_inv _ _ _ _ E) as (used & rest & p & T & S & R & Ee & F).
  destruct (good_steps _ _ _ S F) as [Go Tx]. pose proof (list_steps _ _ _ S F) as Ls.
  apply parse_end_inv in Ee. destruct Ee as (l & Gr & M & C). rewrite Gr, M. apply Forall_rev. change (md_reportTime (md_set_typeError (ps_md p) (st_type (finalTransition (ps_status p))) (st_error (finalTransition (ps_status p))))) with (md_reportTime (ps_md p)).
  destruct C as [[_ ->]|(l' & b & N & A & j & l0 & -> & ->)]; [constructor|].
  destruct (ps_groups p) as [|k l1] eqn:Eg; [congruence|].
  destruct (Forall_inv Go) as [X|X]; [contradiction|].
  pose proof (end_refused _ _ _ _ _ _ X A) as B. subst b.
  pose proof (offer_ok _ _ _ _ _ _ _ Ls (or_intror X) Tx (or_introl eq_refl) ltac:(congruence) A) as Y. cbn iota in Y. apply mid_past in Y.
  destruct (sempty (gi_rawString j)); [exact (Forall_inv_tail Y)|exact Y].
Qed.
Lemma settle_refusable : forall g, refusable g -> refusable (settle g).
Proof.
  intros g R. destruct g; try exact R; exists "", RP_RMK, (md_at None); cbn [settle Group_append]; eexists; reflexivity.
Qed.
Lemma result_whole : forall sgn report limit r, parse sgn report limit = Ok r ->
  forall g part raw, In (mkGroupInfo g part raw) (pr_groups r) -> raw <> "" -> is_fallback g = false -> Whole part (md_reportTime (pr_metadata r)) (words_of raw).
Proof.
  intros sgn report limit r P g part raw I N F. destruct (result_assembled _ _ _ _ P _ _ _ I N F) as (g0 & A & _ & E & [R|R]); [|exists g0; auto].
  exists g0. split; [exact A|]. subst g0.
  pose proof (proj1 (Forall_forall _ _) (result_settled _ _ _ _ P) _ I) as S.
  destruct S as [S|[S|(h & s & p & md & Rh & Ap)]]; cbn [gi_rawString gi_group] in *; [contradiction|rewrite S in F; discriminate F|].
  rewrite (refused_settle _ _ _ _ _ Rh Ap). apply settle_refusable. exists s, p, md, g. exact Ap.
Qed.
(** The kinds do not matter any more. *)
Theorem same_text : forall sgn report limit r sgn' report' limit' r', parse sgn report limit = Ok r -> parse sgn' report' limit' = Ok r' ->
  md_reportTime (pr_metadata r) = md_reportTime (pr_metadata r') ->
  forall g g' part raw, In (mkGroupInfo g part raw) (pr_groups r) -> In (mkGroupInfo g' part raw) (pr_groups r') -> raw <> "" -> g = g'.
Proof.
  intros sgn report limit r sgn' report' limit' r' P P' T g g' part raw I I' N.
  pose proof (proj1 (Forall_forall _ _) (result_past _ _ _ _ P) _ I) as U. pose proof (proj1 (Forall_forall _ _) (result_past _ _ _ _ P') _ I') as U'.
  unfold past, texts in U, U'. cbn [gi_group gi_reportPart gi_rawString] in U, U'.
  destruct (is_fallback g) eqn:F, (is_fallback g') eqn:F'.
  - rewrite (fallback_unknown _ F), (fallback_unknown _ F'). reflexivity.
  - pose proof (result_whole _ _ _ _ P' _ _ _ I' N F') as W. rewrite <- T in W. destruct (U eq_refl W).
  - pose proof (result_whole _ _ _ _ P _ _ _ I N F) as W. rewrite T in W. destruct (U' eq_refl W).
  - exact (same_words _ _ _ _ _ _ _ _ P P' T _ _ _ _ I I' N F F').
Qed.
