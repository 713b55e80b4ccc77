(** C60: reports read from what the words of groups say. *)
From Coq Require Import Lia.
From Verif Require Import Prim Lib Regex Float Values Weather Groups1 Groups2 Groups3 Groups4 Parser SpecReach SpecTokens SpecReads SpecText SpecAssembled SpecNumeral SpecOpenings SpecSentence SpecWhole SpecSaid SpecLongest.
From Verif Require Import Pf_Ok Pf_Caps Pf_Kinds Pf_Total Pf_EndAppend Pf_Sentence Pf_Assembled Pf_TimeOnly Pf_OneKind Pf_Division Pf_HeaderWalk Pf_ReportIff Pf_Ends Pf_Completion Pf_Said Pf_Longest.
From Verif Require SpecVisibility SpecNearby SpecMeta.
Import SpecVisibility(may_end).
Local Open Scope string_scope.

Lemma not_continued : forall part now ws g next, in_report part -> Assembled part now ws g -> (exists g', refuses part now g next g') \/ spoils part now g next -> ~ Continues part now (Group_index g) ws next.
Proof.
  intros part now ws g next P A H C. apply (continues_iff _ _ _ _ _ P A) in C. destruct C as (h & C).
  destruct H as [(g' & H)|H]; [rewrite (H (md_at now) eq_refl) in C; discriminate C|]. destruct (H (md_at now) eq_refl) as (g' & E). rewrite E in C. discriminate C.
Qed.
Lemma refused_index : forall part now g next g', refuses part now g next g' -> Group_index g' = Group_index g.
Proof. intros part now g next g' H. exact (append_index _ _ _ _ _ _ (H (md_at now) eq_refl)). Qed.
Lemma item_piece : forall part now ws next g, in_report part -> Item part now ws next g -> Piece part now ws next g.
Proof.
  intros part now ws next g P [words nx k k' A Sh R|word words nx v v' c Sh Av Ac Sc R|word words nx v c Sh N Av Ac Sc Sv|word nx U|words nx k A Sh Sp].
  - pose proof (refused_index _ _ _ _ _ R) as I. apply Piece_told.
    + exact (said_refused _ _ _ _ _ _ P A R).
    + rewrite I. apply not_continued; eauto.
    + intros W. exact (range_spoils _ _ _ _ _ _ A W R).
    + destruct Sh as [Sh|(c & ->)]; [left; exact Sh|right; exact I].
  - apply Piece_nearby; [exact Sh|exact (said_refused _ _ _ _ _ _ P Av R)| |].
    + apply (not_continued part now (word :: words) (GVicinity v)); eauto.
    + apply (not_continued part now [word] (GCloud c)); auto.
  - apply Piece_nearby_incomplete; [exact Sh|exact N| | | |].
    + apply opens_iff; [exact P|]. exists (GVicinity v). auto.
    + apply (not_continued part now (word :: words) (GVicinity v)); auto.
    + apply (not_continued part now [word] (GCloud c)); auto.
    + assert (NC : ~ Continues part now (Group_index (GVicinity v)) (word :: words) nx) by (apply not_continued; auto).
      apply (proj2 (next_iff _ _ _ _ _ P Av NC)) in Sv. destruct Sv as [Sv|(_ & w & x & a & b & low & high & I & E & _)]; [exact Sv|]. injection E as <- _. destruct Sh as [_ Sh]. cbn in I, Sh.
      destruct I as [<-|[<-|[]]]; repeat (destruct Sh as [Sh|Sh]; [discriminate Sh|]); destruct Sh.
  - apply Piece_unknown. intros kind O. apply opens_iff in O; [|exact P]. destruct O as (g' & _ & A). inversion A as [w1 m1 p1 h1 T1 I1 E1|ws' w1 m1 h0 h1 A1 T1 E1 Y1]; subst; [|apply (assembled_nonempty _ _ _ _ A1); destruct ws' as [|? [|]]; [reflexivity|discriminate|discriminate]].
    rewrite (U p1 m1 I1 eq_refl) in E1. discriminate E1.
  - assert (NC : ~ Continues part now (Group_index k) words nx) by (apply not_continued; auto). apply (Piece_incomplete part now (Group_index k)); [|exact NC| |exact Sh].
    + apply opens_iff; [exact P|]. eauto.
    + exact (proj1 (proj2 (next_iff _ _ _ _ _ P A NC)) Sp).
Qed.
Lemma shared_both : forall part now w, shared part w -> (exists c, Assembled part now [w] (GCloud c)) /\ (exists v, Assembled part now [w] (GVicinity v)).
Proof.
  intros part now w [-> I]. cbn in I. repeat (destruct I as [<-|I]; [split; eexists; apply assembled_first; vm_compute; reflexivity|]). destruct I.
Qed.
Lemma shared_spoils : forall part now w c next, in_report part -> shared part w -> Assembled part now [w] (GCloud c) -> ~ Continues part now cloud_kind [w] next -> spoils part now (GCloud c) next.
Proof.
  intros part now w c next P Sh A N. destruct (next_does _ _ _ _ next A) as [C|[(g' & R)|Sp]]; [|exfalso|exact Sp].
  - destruct N. apply (continues_iff part now [w] (GCloud c) next P A). exact C.
  - pose proof (shared_cloud _ _ _ _ Sh A) as I. specialize (R (md_at now) eq_refl). apply appended_inv in R. destruct g'; try contradiction. cbn [appended_as] in R. unfold CloudGroup_append in R. rewrite I in R. unfold Cloud_appendObscuration in R. cbv zeta in R. outcome R.
Qed.
Lemma shared_vicinity : forall part now w, shared part w -> ~ Text part now vicinity_kind [w].
Proof.
  intros part now w Sh (g & I & H). destruct g; try discriminate I. cbn [Said] in H. destruct H as (_ & v & V & _). inversion V as [pw t dw d b1 l1 ands b2 l2 l mw m Ph Di B1 An B2 Mo Ne Nb To EE]; subst.
  assert (L : length (pw ++ dw ++ b1 ++ ands ++ b2 ++ mw) = 1%nat) by (rewrite EE; reflexivity). rewrite !app_length in L.
  assert (Lp : (1 <= length pw)%nat) by (destruct pw; [|cbn [length]; lia]; exfalso; clear - Ph; destruct Ph as [(w & X & _)|[X _]]; discriminate X). destruct Ne as [Ne|Ne]; [destruct dw; [congruence|cbn [length] in L; lia]|destruct b1; [congruence|cbn [length] in L; lia]].
Qed.
Lemma piece_item : forall part now ws next g, in_report part -> Piece part now ws next g -> exists g', Item part now ws next g' /\ Group_index g' = Group_index g.
Proof.
  intros part now ws next g P [words nx k H NC W Sh|word words nx v Sh H NC NCc|word nx U|kind words nx O NC W Sh|word words nx Sh N O NC NCc T].
  - destruct (said_assembled _ _ _ _ H) as (g0 & A & _ & I). rewrite <- I in NC. destruct (proj2 (proj1 (next_iff _ _ _ _ _ P A NC))) as (g' & R).
    + split; [exists k; auto|exact W].
    + exists g'. pose proof (refused_index _ _ _ _ _ R) as J. split; [|congruence]. apply (Item_read part now words nx g0 g' A); [|exact R]. destruct Sh as [Sh|Sh]; [left; exact Sh|right]. rewrite Sh in I. destruct g0; try discriminate I. eauto.
  - destruct (said_assembled _ _ _ _ H) as (g0 & A & _ & I). destruct g0; try discriminate I. destruct (shared_both part now word Sh) as [(c & Ac) _].
    assert (W : ~ Wrong_range part (word :: words) nx).
    { intros (_ & w & x & a & b & low & high & J & E & _). injection E as <- _. destruct Sh as [_ Sh]. cbn in J, Sh. destruct J as [<-|[<-|[]]]; repeat (destruct Sh as [Sh|Sh]; [discriminate Sh|]); destruct Sh. }
    destruct (proj2 (proj1 (next_iff _ _ _ _ _ P A NC))) as (g' & R); [split; [exists (GVicinity v); auto|exact W]|].
    pose proof (refused_index _ _ _ _ _ R) as J. destruct g'; try discriminate J. match type of R with refuses _ _ _ _ ?x => exists x end. split; [|reflexivity]. eapply Item_nearby; [exact Sh|exact A|exact Ac| |exact R]. exact (shared_spoils _ _ _ _ _ P Sh Ac NCc).
  - exists (GUnknown mkUnknown). split; [|reflexivity]. apply Item_unread. intros p md I T. destruct (tried p word part md I) as ([g'|] & E); [exfalso|exact E].
    apply (U (Group_index g')). apply opens_iff; [exact P|]. exists g'. split; [reflexivity|]. exact (Assembled_first part now word md p g' T I E).
  - exists (GUnknown mkUnknown). split; [|reflexivity]. apply opens_iff in O; [|exact P]. destruct O as (g' & <- & A). apply (Item_spoiled part now words nx g' A Sh). exact (proj2 (proj2 (next_iff _ _ _ _ _ P A NC)) W).
  - exists (GUnknown mkUnknown). split; [|reflexivity]. apply opens_iff in O; [|exact P]. destruct O as (g' & I & A). destruct g'; try discriminate I. destruct (shared_both part now word Sh) as [(c & Ac) _].
    eapply Item_nearby_spoiled; [exact Sh|exact N|exact A|exact Ac|exact (shared_spoils _ _ _ _ _ P Sh Ac NCc)|]. apply (proj2 (proj2 (next_iff _ _ _ _ _ P A NC))). left. exact T.
Qed.
(** ** Groups one after another *)
Lemma keyword_said : forall part now ws k k', Said part now ws (GKeyword k) -> Said part now ws (GKeyword k') -> k = k'.
Proof. intros part now ws [k] [k'] [-> _] [E _]. cbn [kw_t] in E. destruct k, k'; try reflexivity; discriminate E. Qed.
Lemma plain_same : forall type part now ws next g g', in_report part -> Piece part now ws next g -> Item part now ws next g' -> Group_index g' = Group_index g -> plain_group type g -> plain_group type g'.
Proof.
  intros type part now ws next g g' P A B I Pl k' ->. apply item_piece in B; [|exact P]. destruct g; try discriminate I. apply Pl.
  inversion A; subst. inversion B; subst. f_equal. eapply keyword_said; eassumption.
Qed.
Lemma sentence_pieces : forall type part now next items, in_report part -> Sentence type part now next items -> Pieces type part now next items.
Proof.
  intros type part now next items P H. induction H as [|words g items I Pl _ IH|word items v c Sh Av Ac Sc Sv _ IH]; [constructor|constructor; [apply item_piece; assumption|assumption|exact IH]|].
  constructor; [exact Sh| | |exact IH].
  - apply (not_continued part now [word] (GCloud c)); auto.
  - apply (not_continued part now [word] (GVicinity v)); auto.
Qed.
Definition same_item (a b : list string * Group) : Prop := fst a = fst b /\ Group_index (snd a) = Group_index (snd b).
Lemma same_text : forall l l', Forall2 same_item l l' -> text_of l = text_of l'.
Proof. intros l l' H. unfold text_of. induction H as [|a b l l' [E _] _ IH]; [reflexivity|]. cbn [map List.concat]. rewrite E, IH. reflexivity. Qed.
Lemma pieces_sentence : forall type part now next items, in_report part -> Pieces type part now next items -> exists items', Sentence type part now next items' /\ Forall2 same_item items items'.
Proof.
  intros type part now next items P H. induction H as [|words g items I Pl _ (items' & IH & Sm)|word items v Sh NC NV _ (items' & IH & Sm)].
  - exists []. split; constructor.
  - destruct (piece_item _ _ _ _ _ P I) as (g' & I' & X). exists ((words, g') :: items'). split; [|constructor; [split; [reflexivity|symmetry; exact X]|exact Sm]].
    constructor; [rewrite <- (same_text _ _ Sm); exact I'|exact (plain_same _ _ _ _ _ _ _ P I I' X Pl)|exact IH].
  - destruct (shared_both part now word Sh) as [(c & Ac) (v0 & Av)]. exists (([], GVicinity v0) :: ([word], GUnknown mkUnknown) :: items'). split; [|constructor; [split; reflexivity|constructor; [split; reflexivity|exact Sm]]].
    apply (Sentence_nothing type part now next word items' v0 c Sh Av Ac); [| |exact IH]; rewrite <- (same_text _ _ Sm).
    + exact (shared_spoils _ _ _ _ _ P Sh Ac NC).
    + apply (proj2 (proj2 (next_iff _ _ _ _ _ P Av NV))). left. exact (shared_vicinity _ _ _ Sh).
Qed.
(** ** Reports *)
Lemma known_part : forall type, type <> RT_UNKNOWN -> in_report (body_part type).
Proof. intros []; intros N; [contradiction|left; reflexivity|right; left; reflexivity]. Qed.
Lemma remarks_part : in_report RP_RMK.
Proof. right. right. reflexivity. Qed.
Lemma well_told : forall type now body remarks, type <> RT_UNKNOWN -> well_formed type now body remarks -> told type now body remarks.
Proof.
  intros type now body remarks N [B R]. split; [apply sentence_pieces; [apply known_part; exact N|exact B]|]. destruct remarks; [|exact R]. apply sentence_pieces; [exact remarks_part|exact R].
Qed.
Definition same_remarks (a b : option (list (list string * Group))) : Prop :=
  match a, b with None, None => True | Some l, Some l' => Forall2 same_item l l' | _, _ => False end.
Lemma same_remark_words : forall a b, same_remarks a b -> remark_words a = remark_words b.
Proof. intros [a|] [b|] H; try contradiction; [|reflexivity]. cbn [remark_words]. rewrite (same_text _ _ H). reflexivity. Qed.
Lemma told_well : forall type now body remarks, type <> RT_UNKNOWN -> told type now body remarks ->
  exists body' remarks', well_formed type now body' remarks' /\ Forall2 same_item body body' /\ same_remarks remarks remarks'.
Proof.
  intros type now body remarks N [B R]. destruct (pieces_sentence _ _ _ _ _ (known_part _ N) B) as (body' & B' & Sb).
  destruct remarks as [items|].
  - destruct (pieces_sentence _ _ _ _ _ remarks_part R) as (items' & R' & Sr). exists body', (Some items'). split; [|split; [exact Sb|exact Sr]]. split; [|exact R']. exact B'.
  - exists body', None. split; [|split; [exact Sb|exact I]]. split; [exact B'|]. intros ->. inversion Sb. subst. contradiction.
Qed.
Lemma shown_alike : forall part l l', Forall2 same_item l l' -> Forall2 alike (map (shown_as part) l) (map (shown_as part) l').
Proof. intros part l l' H. induction H as [|a b l l' [E I] _ IH]; [constructor|]. constructor; [|exact IH]. unfold shown_as, alike. cbn [gi_group gi_reportPart gi_rawString]. rewrite E. auto. Qed.
Lemma merged_alike : forall l l', Forall2 alike l l' -> Forall2 alike (merged l) (merged l').
Proof.
  intros l l' H. induction H as [|[g p r] [g' p' r'] l l' (I & Ep & Er) _ IH]; [constructor|]. cbn [gi_group gi_reportPart gi_rawString] in *. subst p' r'. cbn [merged gi_group].
  assert (D : Forall2 alike (mkGroupInfo g p r :: merged l) (mkGroupInfo g' p r :: merged l')) by (constructor; [repeat split; exact I|exact IH]).
  destruct g; destruct g'; try discriminate I; try exact D. clear D.
  destruct IH as [|[h q s] [h' q' s'] m m' (J & Eq & Es) Rest]; [constructor; [repeat split|constructor]|]. cbn [gi_group gi_reportPart gi_rawString] in *. subst q' s'.
  assert (D : Forall2 alike (mkGroupInfo (GUnknown g) p r :: mkGroupInfo h q s :: m) (mkGroupInfo (GUnknown g0) p r :: mkGroupInfo h' q s :: m')) by (constructor; [repeat split|constructor; [repeat split; exact J|exact Rest]]).
  destruct h; destruct h'; try discriminate J; try exact D. constructor; [repeat split|exact Rest].
Qed.
Lemma same_alike : forall l, Forall2 alike l l.
Proof. induction l; constructor; [repeat split|assumption]. Qed.
Lemma remarks_alike : forall type a b, same_remarks a b -> Forall2 alike (remark_groups type a) (remark_groups type b).
Proof. intros type [a|] [b|] H; try contradiction; [|constructor]. cbn [remark_groups]. constructor; [repeat split|]. apply merged_alike, shown_alike. exact H. Qed.
Lemma report_told : forall W type now groups n, Report W type now groups n -> Told_report W type now groups n.
Proof.
  intros W type now groups n [ty nw header body remarks H F|loc time t body remarks L T F X|ty nw items k word part N].
  - constructor; [exact H|]. apply well_told; [exact (header_known _ _ _ H)|exact F].
  - constructor; try assumption. apply well_told; [discriminate|exact F].
  - constructor. exact N.
Qed.
Lemma told_report : forall W type now groups n, Told_report W type now groups n -> exists groups', Report W type now groups' n /\ Forall2 alike groups groups'.
Proof.
  intros W type now groups n [ty nw header body remarks H F|loc time t body remarks L T F X|ty nw items k word part N].
  - destruct (told_well _ _ _ _ (header_known _ _ _ H) F) as (body' & remarks' & F' & Sb & Sr). rewrite (same_text _ _ Sb), (same_remark_words _ _ Sr). eexists. split; [exact (Report_typed _ _ _ _ _ H F')|].
    apply Forall2_app; [apply same_alike|]. apply Forall2_app; [apply merged_alike, shown_alike; exact Sb|apply remarks_alike; exact Sr].
  - destruct (told_well RT_METAR _ _ _ ltac:(discriminate) F) as (body' & remarks' & F' & Sb & Sr). rewrite (same_text _ _ Sb) in *. rewrite (same_remark_words _ _ Sr). eexists. split; [exact (Report_untyped _ _ _ _ _ L T F' X)|].
    apply Forall2_app; [apply same_alike|]. apply Forall2_app; [apply merged_alike, shown_alike; exact Sb|apply remarks_alike; exact Sr].
  - eexists. split; [exact (Report_nothing _ _ _ _ _ _ N)|apply same_alike].
Qed.
Theorem told_sound : forall sgn report limit r type now groups, parse sgn report limit = Ok r -> read_as r type now groups ->
  exists n, Told_report (report_groups sgn report) type now groups n /\ (n < limit)%nat.
Proof.
  intros sgn report limit r type now groups E R. destruct (proj1 (report_iff sgn report limit type now groups) (ex_intro _ r (conj E R))) as (n & H & L). exists n. split; [apply report_told; exact H|exact L].
Qed.
Theorem told_complete : forall sgn report limit type now groups n, Told_report (report_groups sgn report) type now groups n -> (n < limit)%nat ->
  exists r groups', parse sgn report limit = Ok r /\ read_as r type now groups' /\ Forall2 alike groups groups' /\ Told_report (report_groups sgn report) type now groups' n.
Proof.
  intros sgn report limit type now groups n H L. destruct (told_report _ _ _ _ _ H) as (groups' & R & A). destruct (proj2 (report_iff sgn report limit type now groups') (ex_intro _ n (conj R L))) as (r & E & X).
  exists r, groups'. split; [exact E|]. split; [exact X|]. split; [exact A|]. apply report_told. exact R.
Qed.
Theorem told_no_error : forall sgn report limit r, parse sgn report limit = Ok r ->
  (md_error (pr_metadata r) = RE_NONE <-> exists type now groups n, Told_report (report_groups sgn report) type now groups n /\ (n < limit)%nat).
Proof.
  intros sgn report limit r E. rewrite (no_error_iff sgn report limit r E). split; intros (type & now & groups & n & H & L).
  - exists type, now, groups, n. split; [apply report_told; exact H|exact L].
  - destruct (told_report _ _ _ _ _ H) as (groups' & R & _). exists type, now, groups', n. auto.
Qed.
Theorem told_one_way : forall sgn report type now groups n type' now' groups' n', Told_report (report_groups sgn report) type now groups n -> Told_report (report_groups sgn report) type' now' groups' n' ->
  type = type' /\ now = now' /\ Forall2 alike groups groups' /\ n = n'.
Proof.
  intros sgn report type now groups n type' now' groups' n' H H'. destruct (told_report _ _ _ _ _ H) as (g & R & A). destruct (told_report _ _ _ _ _ H') as (g' & R' & A').
  destruct (report_one_way _ _ _ _ _ _ _ _ _ _ R R') as (-> & -> & -> & ->). split; [reflexivity|]. split; [reflexivity|]. split; [|reflexivity].
  clear - A A'. revert groups' A'. induction A as [|a b l l' (I & J & K) _ IH]; intros groups' A'; inversion A' as [|a' b' m m' (I' & J' & K') Rest]; subst; [constructor|]. constructor; [repeat split; congruence|]. apply IH. assumption.
Qed.
(** ** An example *)
Definition l_report : string := "METAR YUDO 091130Z 24008KT 2 1/2SM FEW020 RMK FG FEW001 FU DSNT SE SFC VIS 2 1/2 TWR VIS 2 1/2V3 OVC V SNINCR 1/10=".
Lemma longest_example :
  exists t groups n, Told_report (report_groups true l_report) RT_METAR (Some t) groups n
    /\ map (fun i => (Group_index (gi_group i), gi_rawString i)) groups
       = [(0, "METAR"); (1, "YUDO"); (2, "091130Z"); (4, "24008KT"); (5, "2 1/2SM"); (6, "FEW020"); (0, "RMK");
          (6, "FG FEW001"); (19, "FU DSNT SE"); (5, "SFC VIS 2 1/2"); (21, "TWR VIS 2 1/2V3 OVC V"); (13, "SNINCR 1/10")]%nat.
Proof.
  destruct (parse true l_report 100) as [r|] eqn:E; [|vm_compute in E; discriminate E].
  assert (K : exists t, read_as r RT_METAR (Some t) (pr_groups r) /\ map (fun i => (Group_index (gi_group i), gi_rawString i)) (pr_groups r)
       = [(0, "METAR"); (1, "YUDO"); (2, "091130Z"); (4, "24008KT"); (5, "2 1/2SM"); (6, "FEW020"); (0, "RMK");
          (6, "FG FEW001"); (19, "FU DSNT SE"); (5, "SFC VIS 2 1/2"); (21, "TWR VIS 2 1/2V3 OVC V"); (13, "SNINCR 1/10")]%nat).
  { vm_compute in E. injection E as <-. eexists. split; [repeat split|vm_compute; reflexivity]. }
  destruct K as (t & K & M). destruct (told_sound _ _ _ _ _ _ _ E K) as (n & H & _). exists t, (pr_groups r), n. auto.
Qed.
