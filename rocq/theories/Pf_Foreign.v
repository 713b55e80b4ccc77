(** C81: a word which is not understood changes nothing else. *)
From Coq Require Import Lia Bool.
From Verif Require Import Prim Lib Regex Float Values Weather Groups1 Groups2 Groups3 Groups4 Parser
  SpecRegex SpecNumeral SpecTokens SpecReads SpecText SpecReach SpecAssembled SpecOpenings SpecSentence SpecLongest SpecWhole SpecAlphabet SpecForeign.
From Verif Require Import Pf_View SpecMeta Pf_Meta Pf_Tokens Pf_Regex Pf_Ok Pf_Caps Pf_Kinds Pf_Total Pf_Steps Pf_OneKind Pf_Said Pf_TimeOnly Pf_Sentence Pf_Reading Pf_Division Pf_Assembled Pf_ReportIff Pf_Alphabet Pf_Local Pf_Again.
From Verif Require SpecVisibility Pf_VisTexts Pf_Longest Pf_Context.
Import SpecVisibility(may_end).
Local Open Scope string_scope.

(** ** What a foreign word does *)
Lemma foreign_append : forall part now ws g w g', foreign w -> Assembled part now ws g -> Group_append g w part (md_at now) <> Ok (g', APPENDED).
Proof.
  intros part now ws g w g' [F L] A E.
  pose proof (assembled_known _ _ _ _ (Assembled_more part now ws w (md_at now) g g' A eq_refl E)) as [K _].
  destruct (append_clean _ _ _ _ _ E K) as [C|[_ C]]; [exact (F (clean_word _ C))|exact (L C)].
Qed.
Lemma foreign_unread : forall part now w, foreign w -> unread part now w.
Proof.
  intros part now w [F L] p md I T.
  destruct (alternative_returns p w part md I) as ([g|] & R); [exfalso|exact R].
  apply parsed_inv in R; [|exact I]. destruct (parsed_clean _ _ _ _ R) as [C|[_ C]]; [exact (F (clean_word _ C))|exact (L C)].
Qed.
Lemma foreign_range : forall part ws w, foreign w -> ~ Wrong_range part ws w.
Proof.
  intros part ws s [F _] (-> & w & x & a & b & low & high & _ & _ & -> & L & H). apply F, clean_word.
  assert (La : clean a) by (inversion L; subst; eapply miles_clean; apply Pf_VisTexts.miles_remark; eassumption).
  assert (Lb : clean b) by (inversion H; subst; eapply miles_clean; apply Pf_VisTexts.miles_remark; eassumption).
  apply clean_app; [exact La|]. apply clean_app; [reflexivity|exact Lb].
Qed.
Lemma foreign_refused : forall part now ws g next g' w, in_report part -> Assembled part now ws g -> refuses part now g next g' -> foreign w -> refuses part now g w g'.
Proof.
  intros part now ws g next g' w P A R F. destruct (next_does _ _ _ _ w A) as [(h & C)|[(h & R2)|Sp]].
  - destruct (foreign_append _ _ _ _ _ _ F A C).
  - destruct (assembled_known _ _ _ _ A) as [_ Re]. assert (h = g') as ->; [|exact R2].
    rewrite (refused_settle _ _ _ _ _ Re (R (md_at now) eq_refl)), (refused_settle _ _ _ _ _ Re (R2 (md_at now) eq_refl)). reflexivity.
  - destruct (Pf_Longest.spoils_why _ _ _ _ _ P A Sp) as [N|N]; [destruct N; exact (Pf_Longest.refused_end _ _ _ _ _ R)|destruct (foreign_range _ _ _ F N)].
Qed.
Lemma foreign_spoils : forall part now ws g next w, in_report part -> Assembled part now ws g -> spoils part now g next -> ~ Wrong_range part ws next -> foreign w -> spoils part now g w.
Proof.
  intros part now ws g next w P A Sp W F. destruct (next_does _ _ _ _ w A) as [(h & C)|[(h & R2)|X]]; [destruct (foreign_append _ _ _ _ _ _ F A C)| |exact X].
  destruct (Pf_Longest.spoils_why _ _ _ _ _ P A Sp) as [N|N]; [destruct N; exact (Pf_Longest.refused_end _ _ _ _ _ R2)|contradiction].
Qed.
(** A range of values begins no group. *)
Lemma range_begins : forall part now us next ws g, Wrong_range part us next -> Assembled part now ws g -> hd "" ws <> next.
Proof.
  intros part now us next ws g W A E. destruct (Pf_Context.range_unread _ _ _ W) as [_ U].
  destruct (first_of next part (md_at now) alternatives (incl_refl _)) as (h & G & _).
  assert (P : GroupParser_parse next part (md_at now) = Ok h) by exact G. pose proof (U _ _ P) as K.
  pose proof (Pf_Longest.assembled_nonempty _ _ _ _ A) as N. destruct ws as [|w ws]; [congruence|]. cbn [hd] in E. subst w.
  exact (Pf_Context.unread_dead _ _ _ _ P K ws g A).
Qed.
Lemma range_item : forall part now us ws next g, Wrong_range part us (hd "" ws) -> Item part now ws next g -> is_fallback g = true.
Proof.
  intros part now us ws next g W H. inversion H as [ws' nx g0 g' A N R|w ws' nx v v' c Sh A Ac Sp R|w ws' nx v c Sh Nw A Ac Sp Sv|w nx U|ws' nx g0 A N Sp]; subst; try reflexivity;
  destruct (range_begins _ _ _ _ _ _ W A eq_refl).
Qed.
Lemma item_foreign : forall part now ws next g w, in_report part -> foreign w -> Item part now ws next g ->
  (is_fallback g = true -> ~ Wrong_range part ws next) -> Item part now ws w g.
Proof.
  intros part now ws next g w P F H B.
  destruct H as [ws next g g' A N R|u ws next v v' c Sh A Ac Sp R|u ws next v c Sh Nw A Ac Sp Sv|u next U|ws next g A N Sp].
  - exact (Item_read _ _ _ _ _ _ A N (foreign_refused _ _ _ _ _ _ _ P A R F)).
  - pose proof (foreign_refused _ _ _ _ _ _ _ P A R F) as R'. refine (Item_nearby _ _ _ _ _ _ _ _ Sh A Ac _ R').
    destruct ws as [|u' ws]; [|exact Sp]. exfalso. apply (Pf_Context.shared_unfinished part now u Sh). exists (GVicinity v). split; [exact A|].
    exists next, part, (md_at now), (GVicinity v'). exact (R (md_at now) eq_refl).
  - refine (Item_nearby_spoiled _ _ _ _ _ _ _ Sh Nw A Ac _ _); [destruct ws; [congruence|exact Sp]|].
    exact (foreign_spoils _ _ _ _ _ _ P A Sv (B eq_refl) F).
  - exact (Item_unread _ _ _ _ U).
  - exact (Item_spoiled _ _ _ _ _ A N (foreign_spoils _ _ _ _ _ _ P A Sp (B eq_refl) F)).
Qed.

(** ** Items before and after *)
Definition unknown_item (x : list string * Group) : Prop := is_fallback (snd x) = true.
Definition apart_items (l m : list (list string * Group)) : Prop := forall l' x y m', l = (l' ++ [x])%list -> m = y :: m' -> unknown_item x -> unknown_item y -> False.
Definition texted_last (l : list (list string * Group)) : Prop := forall l' x, l = (l' ++ [x])%list -> fst x <> [].
Lemma sentence_text : forall type part now next items, Sentence type part now next items -> items <> [] -> text_of items <> [].
Proof.
  intros type part now next items [|ws g l I Pl H|u l v c Sh Av Ac Sc Sv H] N; [congruence| |discriminate].
  pose proof (item_words _ _ _ _ _ I) as W. change (text_of ((ws, g) :: l)) with (ws ++ text_of l)%list. destruct ws; [congruence|discriminate].
Qed.
Lemma hd_irrelevant : forall (l : list string) a b, l <> [] -> hd a l = hd b l.
Proof. intros [|x l] a b N; [congruence|reflexivity]. Qed.
Lemma text_app : forall a b, text_of (a ++ b) = (text_of a ++ text_of b)%list.
Proof. intros a b. unfold text_of. rewrite map_app, concat_app. reflexivity. Qed.
Lemma hd_app_text : forall (l m : list string) a, l <> [] -> hd a (l ++ m)%list = hd a l.
Proof. intros [|x l] m a N; [congruence|reflexivity]. Qed.
Lemma apart_cons : forall x l m, l <> [] -> apart_items (x :: l) m -> apart_items l m.
Proof. intros x l m N A l' y z m' -> E. apply (A (x :: l') y z m'); [reflexivity|exact E]. Qed.
Lemma texted_cons : forall x l, texted_last (x :: l) -> texted_last l.
Proof. intros x l A l' y ->. apply (A (x :: l') y). reflexivity. Qed.
Lemma sentence_cut : forall type part now next w items, in_report part -> foreign w -> (forall us, ~ Wrong_range part us next) -> Sentence type part now next items ->
  forall l m, items = (l ++ m)%list -> texted_last l -> apart_items l m -> Sentence type part now w l /\ Sentence type part now next m.
Proof.
  intros type part now next w items P F X H. induction H as [|ws g items I Pl H IH|u items v c Sh Av Ac Sc Sv H IH]; intros l m E T A.
  - destruct l; [|discriminate]. destruct m; [|discriminate]. split; constructor.
  - destruct l as [|x l]; [cbn in E; subst m; split; [constructor|apply Sentence_item; assumption]|]. injection E as <- ->.
    destruct l as [|y l].
    + split; [|exact H]. apply Sentence_item; [|exact Pl|constructor]. cbn [text_of map List.concat hd].
      cbn [app] in *. refine (item_foreign _ _ _ _ _ _ P F I _). intros K W.
      destruct H as [|ws2 g2 m I2 Pl2 H2|u m v c Sh Av Ac Sc Sv H2].
      * exact (X _ W).
      * pose proof (item_words _ _ _ _ _ I2) as N2. change (text_of ((ws2, g2) :: m)) with (ws2 ++ text_of m)%list in W.
        rewrite hd_app_text in W by exact N2. rewrite (hd_irrelevant _ next "" N2) in W.
        exact (A [] (ws, g) (ws2, g2) m eq_refl eq_refl K (range_item _ _ _ _ _ _ W I2)).
      * cbn in W. exact (range_begins _ _ _ _ _ _ W Ac eq_refl).
    + assert (Ny : y :: l <> []) by discriminate. destruct (IH (y :: l) m eq_refl (texted_cons _ _ T) (apart_cons _ _ _ Ny A)) as [S1 S2]. split; [|exact S2].
      apply Sentence_item; [|exact Pl|exact S1]. rewrite text_app in I. pose proof (sentence_text _ _ _ _ _ S1 Ny) as N.
      rewrite hd_app_text in I by exact N. rewrite (hd_irrelevant _ w next N). exact I.
  - destruct l as [|x l]; [cbn in E; subst m; split; [constructor|apply (Sentence_nothing type part now next u items v c); assumption]|]. injection E as <- E.
    destruct l as [|y l]; [destruct (T [] ([], GVicinity v) eq_refl eq_refl)|]. injection E as <- ->.
    destruct l as [|z l].
    + split; [|exact H]. apply (Sentence_nothing type part now w u [] v c); try assumption; [| |constructor]; cbn [text_of map List.concat hd].
      * refine (foreign_spoils _ _ _ _ _ _ P Ac Sc _ F). intros (_ & ? & ? & ? & ? & ? & ? & _ & Z & _). discriminate Z.
      * refine (foreign_spoils _ _ _ _ _ _ P Av Sv _ F). intros (_ & ? & ? & ? & ? & ? & ? & _ & Z & _). discriminate Z.
    + assert (Nz : z :: l <> []) by discriminate. assert (Ny : ([u], GUnknown mkUnknown) :: z :: l <> []) by discriminate.
      destruct (IH (z :: l) m eq_refl (texted_cons _ _ (texted_cons _ _ T)) (apart_cons _ _ _ Nz (apart_cons _ _ _ Ny A))) as [S1 S2]. split; [|exact S2].
      pose proof (sentence_text _ _ _ _ _ S1 Nz) as N. rewrite text_app in Sc, Sv. rewrite hd_app_text in Sc, Sv by exact N. rewrite (hd_irrelevant _ next w N) in Sc, Sv.
      apply (Sentence_nothing type part now w u (z :: l) v c); assumption.
Qed.
Lemma sentence_app : forall type part now next l m, Sentence type part now (hd next (text_of m)) l -> Sentence type part now next m -> Sentence type part now next (l ++ m).
Proof.
  intros type part now next l m H M. remember (hd next (text_of m)) as x eqn:Ex. induction H as [|ws g items I Pl H IH|u items v c Sh Av Ac Sc Sv H IH]; cbn [app]; [exact M| |].
  - apply Sentence_item; [|exact Pl|exact IH]. rewrite text_app. destruct (text_of items); [cbn in *; subst x; exact I|exact I].
  - apply (Sentence_nothing type part now next u (items ++ m) v c); try assumption; rewrite text_app; destruct (text_of items); cbn in *; subst; assumption.
Qed.
Lemma sentence_insert : forall type part now next w l m, foreign w -> Sentence type part now w l -> Sentence type part now next m ->
  Sentence type part now next (l ++ ([w], GUnknown mkUnknown) :: m).
Proof.
  intros type part now next w l m F L M. apply sentence_app; [exact L|]. apply Sentence_item; [|apply unknown_plain|exact M]. apply Item_unread. apply foreign_unread. exact F.
Qed.

(** ** Groups before and after *)
Lemma both_unknown_eq : forall a b, both_unknown a b = true -> is_fallback (gi_group a) = true /\ is_fallback (gi_group b) = true.
Proof. intros a b H. apply andb_prop in H. exact H. Qed.
Lemma merged_glue : forall a b t, both_unknown a b = true -> merged (glue a b :: t) = merged (a :: b :: t).
Proof.
  intros a b t H. pose proof (both_unknown_eq _ _ H) as [Ha Hb]. rewrite (merged_cons (glue a b)), (merged_cons a (b :: t)), (merged_cons b t).
  destruct (merged t) as [|c r]; [rewrite H; reflexivity|].
  unfold both_unknown at 1. rewrite glue_unknown. cbn [andb]. unfold both_unknown at 1. rewrite Hb. cbn [andb].
  destruct (is_fallback (gi_group c)); [|rewrite H; reflexivity].
  unfold both_unknown. rewrite Ha, glue_unknown. cbn [andb]. rewrite glue_glue. reflexivity.
Qed.
Lemma merged_before : forall a b, merged (merged a ++ b) = merged (a ++ b).
Proof.
  induction a as [|x a IH]; intros b; [reflexivity|]. rewrite (merged_cons x a). cbn [app]. rewrite (merged_cons x (a ++ b)), <- IH. clear IH.
  destruct (merged a) as [|m r]; [exact (merged_cons _ _)|]. destruct (both_unknown x m) eqn:H.
  - cbn [app]. rewrite (merged_glue _ _ _ H). exact (merged_cons _ _).
  - cbn [app]. exact (merged_cons _ _).
Qed.
Lemma merged_twice : forall a, merged (merged a) = merged a.
Proof. intros a. pose proof (merged_before a []) as H. rewrite !app_nil_r in H. exact H. Qed.
Lemma merged_after : forall a b, merged (a ++ merged b) = merged (a ++ b).
Proof.
  induction a as [|x a IH]; intros b; cbn [app]; [apply merged_twice|]. rewrite !merged_cons, IH. reflexivity.
Qed.
Lemma merged_known : forall a k b, is_fallback (gi_group k) = false -> merged (a ++ k :: b) = (merged a ++ k :: merged b)%list.
Proof.
  intros a k b K. induction a as [|x a IH]; cbn [app].
  - rewrite merged_cons. unfold both_unknown. rewrite K. cbn [andb]. destruct (merged b); reflexivity.
  - rewrite (merged_cons x (a ++ k :: b)), (merged_cons x a), IH. destruct (merged a) as [|m r]; cbn [app].
    + unfold both_unknown. rewrite K, andb_false_r. reflexivity.
    + destruct (both_unknown x m); reflexivity.
Qed.
Lemma merged_header : forall h b, Forall (fun i => is_fallback (gi_group i) = false) h -> merged (h ++ b) = (h ++ merged b)%list.
Proof.
  intros h b F. induction F as [|k h K F IH]; [reflexivity|]. cbn [app]. rewrite merged_cons, IH. unfold both_unknown. rewrite K. cbn [andb]. destruct (h ++ merged b)%list; reflexivity.
Qed.
Lemma merged_hd : forall x l y m, merged (x :: l) = y :: m -> is_fallback (gi_group y) = is_fallback (gi_group x).
Proof.
  intros x l y m H. rewrite merged_cons in H. destruct (merged l) as [|b r]; [injection H as <- _; reflexivity|].
  destruct (both_unknown x b) eqn:B; injection H as <- _; [apply both_unknown_eq in B; destruct B as [-> _]|]; reflexivity.
Qed.
Lemma merged_nil : forall l, merged l = [] -> l = [].
Proof. intros [|x l] H; [reflexivity|]. rewrite merged_cons in H. destruct (merged l) as [|b r]; [discriminate|]. destruct (both_unknown x b); discriminate. Qed.
Lemma merged_split : forall part items A B, merged (map (shown_as part) items) = (A ++ B)%list ->
  exists l m, items = (l ++ m)%list /\ merged (map (shown_as part) l) = A /\ merged (map (shown_as part) m) = B /\ apart_items l m.
Proof.
  intros part. induction items as [|x items IH]; intros A B E.
  - symmetry in E. apply app_eq_nil in E. destruct E as [-> ->]. exists [], []. do 3 (split; [reflexivity|]). intros l' y z m' X. destruct l'; discriminate X.
  - destruct A as [|a A].
    { exists [], (x :: items). split; [reflexivity|]. split; [reflexivity|]. split; [exact E|]. intros l' y z m' X. destruct l'; discriminate X. }
    cbn [map] in E. rewrite merged_cons in E. destruct (merged (map (shown_as part) items)) as [|b r] eqn:M.
    { apply merged_nil in M. destruct items; [|discriminate]. injection E as <- E. symmetry in E. apply app_eq_nil in E. destruct E as [-> ->].
      exists [x], []. split; [reflexivity|]. split; [exact (merged_cons _ [])|]. split; [reflexivity|]. intros l' y z m' _ X. discriminate X. }
    destruct (both_unknown (shown_as part x) b) eqn:U.
    + injection E as <- ->. destruct (IH (b :: A) B eq_refl) as (l & m & -> & L & R & S). exists (x :: l), m. split; [reflexivity|].
      split; [cbn [map]; rewrite merged_cons, L, U; reflexivity|]. split; [exact R|].
      intros l' y z m' X. destruct l' as [|x' l']; [|injection X as <- X; exact (S l' y z m' X)]. injection X as <- ->. discriminate L.
    + injection E as <- E. destruct (IH A B E) as (l & m & -> & L & R & S). exists (x :: l), m. split; [reflexivity|]. split; [|split; [exact R|]].
      * cbn [map]. rewrite merged_cons, L. destruct A as [|a A]; [reflexivity|]. injection E as <- _. rewrite U. reflexivity.
      * intros l' y z m' X Z Ux Uz. destruct l' as [|x' l']; [|injection X as <- X; exact (S l' y z m' X Z Ux Uz)]. injection X as <- ->. subst m. cbn [map app] in M.
        pose proof (merged_hd _ _ _ _ M) as H. unfold both_unknown in U. unfold unknown_item in Ux, Uz. cbn [gi_group shown_as] in *. rewrite Ux, H, Uz in U. discriminate U.
Qed.
Lemma put_known : forall l x, is_fallback (gi_group x) = false -> put l x = (l ++ [x])%list.
Proof.
  intros l x K. induction l as [|a l IH]; [reflexivity|]. cbn [put]. destruct l as [|b l]; [unfold both_unknown; rewrite K, andb_false_r; reflexivity|]. rewrite IH. reflexivity.
Qed.
Lemma sentence_empty : forall type part now next items, Sentence type part now next items -> forall g, In ([], g) items -> is_fallback g = false.
Proof.
  intros type part now next items H. induction H as [|ws g items I Pl H IH|u items v c Sh Av Ac Sc Sv H IH]; intros k X.
  - destruct X.
  - destruct X as [X|X]; [|exact (IH _ X)]. injection X as -> ->. destruct (item_words _ _ _ _ _ I eq_refl).
  - destruct X as [X|[X|X]]; [injection X as <-; reflexivity|discriminate X|exact (IH _ X)].
Qed.

(** ** The words *)
Lemma words_concat : forall ws, Forall token ws -> words_of (String.concat " " ws) = ws.
Proof.
  induction ws as [|w ws IH]; intros F; [reflexivity|]. pose proof (words_token _ (Forall_inv F)) as W. destruct ws as [|v ws]; [exact W|].
  change (String.concat " " (w :: v :: ws)) with (w ++ String " " (String.concat " " (v :: ws))). rewrite words_app, W, (IH (Forall_inv_tail F)). reflexivity.
Qed.
Lemma words_in_app : forall a b, words_in (a ++ b) = (words_in a ++ words_in b)%list.
Proof. intros a b. apply flat_map_app. Qed.
Lemma words_in_cons : forall a b, words_in (a :: b) = (words_of (gi_rawString a) ++ words_in b)%list.
Proof. reflexivity. Qed.
Lemma words_merged : forall l, words_in (merged l) = words_in l.
Proof.
  induction l as [|a l IH]; [reflexivity|]. rewrite merged_cons, (words_in_cons a l), <- IH. destruct (merged l) as [|b r]; [reflexivity|]. destruct (both_unknown a b); [|reflexivity].
  rewrite !words_in_cons, app_assoc. f_equal. cbn [glue gi_rawString]. exact (words_app _ _).
Qed.
Lemma words_items : forall part items, Forall token (text_of items) -> words_in (map (shown_as part) items) = text_of items.
Proof.
  intros part. induction items as [|[ws g] items IH]; intros F; [reflexivity|]. change (text_of ((ws, g) :: items)) with (ws ++ text_of items)%list in *.
  apply Forall_app in F. destruct F as [F1 F2]. cbn [map]. rewrite words_in_cons, (IH F2). cbn [shown_as gi_rawString fst]. rewrite (words_concat _ F1). reflexivity.
Qed.
Lemma words_header : forall items, Forall token (map fst items) -> words_in (header_groups items) = map fst items.
Proof.
  induction items as [|[w g] items IH]; intros F; [reflexivity|]. cbn [map fst] in *. unfold header_groups. cbn [map]. rewrite words_in_cons. cbn [gi_rawString fst]. rewrite (words_token _ (Forall_inv F)). cbn [app]. f_equal. exact (IH (Forall_inv_tail F)).
Qed.

(** ** One part of the report *)
Definition stranger (part : ReportPart) (w : string) : GroupInfo := mkGroupInfo (GUnknown mkUnknown) part w.
Definition ends_texted (before : list GroupInfo) : Prop := forall l i, before = (l ++ [i])%list -> gi_rawString i <> "".
Lemma insert_part : forall type part now next w items A B, in_report part -> foreign w -> (forall us, ~ Wrong_range part us next) -> Sentence type part now next items ->
  merged (map (shown_as part) items) = (A ++ B)%list -> ends_texted A -> Forall token (text_of items) ->
  exists new, Sentence type part now next new /\ merged (map (shown_as part) new) = merged (A ++ stranger part w :: B)
    /\ text_of new = (words_in A ++ w :: words_in B)%list /\ text_of items = (words_in A ++ words_in B)%list /\ new <> [].
Proof.
  intros type part now next w items A B P F X S E T Tk. destruct (merged_split _ _ _ _ E) as (l & m & -> & L & M & Ap).
  assert (Tl : texted_last l).
  { intros l' [ws g] -> W. cbn [fst] in W. subst ws. assert (K : is_fallback g = false) by (apply (sentence_empty _ _ _ _ _ S); rewrite <- app_assoc; apply in_elt).
    rewrite map_app in L. cbn [map] in L. rewrite merged_snoc in L. rewrite put_known in L by exact K. exact (T _ _ (eq_sym L) eq_refl). }
  destruct (sentence_cut _ _ _ _ w _ P F X S l m eq_refl Tl Ap) as [S1 S2]. rewrite text_app in Tk. apply Forall_app in Tk. destruct Tk as [T1 T2].
  exists (l ++ ([w], GUnknown mkUnknown) :: m)%list. split; [exact (sentence_insert _ _ _ _ _ _ _ F S1 S2)|]. split; [|split; [|split]].
  - rewrite map_app. cbn [map]. change (shown_as part ([w], GUnknown mkUnknown)) with (stranger part w). rewrite <- merged_before, L.
    rewrite <- (merged_after A (stranger part w :: map (shown_as part) m)), <- (merged_after A (stranger part w :: B)). f_equal. f_equal. rewrite !merged_cons. rewrite <- M, merged_twice. reflexivity.
  - rewrite text_app. change (text_of (([w], GUnknown mkUnknown) :: m)) with (w :: text_of m). rewrite <- L, <- M, !words_merged, !words_items by assumption. reflexivity.
  - rewrite text_app, <- L, <- M, !words_merged, !words_items by assumption. reflexivity.
  - destruct l; discriminate.
Qed.

(** ** The whole report *)
Lemma no_range_end : forall part us, ~ Wrong_range part us "".
Proof. intros part us W. destruct (Pf_Context.range_unread _ _ _ W) as [N _]. congruence. Qed.
Lemma no_range_remarks : forall part us, ~ Wrong_range part us "RMK".
Proof.
  intros part us (_ & w & x & a & b & low & high & _ & _ & E & L & H).
  assert (C : clean a) by (inversion L; subst; eapply miles_clean; apply Pf_VisTexts.miles_remark; eassumption).
  destruct a as [|c1 [|c2 [|c3 a]]]; cbn [append] in E; try discriminate E. injection E as _ _ _ E. destruct a; discriminate E.
Qed.
Lemma merged_forall : forall (Q : Group -> Prop), Q (GUnknown mkUnknown) -> forall l, Forall (fun i => Q (gi_group i)) l -> Forall (fun i => Q (gi_group i)) (merged l).
Proof.
  intros Q U l F. induction F as [|a l Qa F IH]; [constructor|]. rewrite merged_cons. destruct (merged l) as [|b r]; [repeat constructor; exact Qa|].
  pose proof (Forall_inv_tail IH) as Ir. destruct (both_unknown a b); constructor; assumption.
Qed.
Definition no_remarks (g : Group) : Prop := forall k, g = GKeyword k -> kw_t k <> Kw_RMK.
Lemma no_remarks_is : forall l, Forall (fun i => no_remarks (gi_group i)) l -> existsb is_remarks l = false.
Proof.
  intros l F. induction F as [|i l N F IH]; [reflexivity|]. cbn [existsb]. rewrite IH, orb_false_r. unfold is_remarks. destruct (gi_group i) as [k| | | | | | | | | | | | | | | | | | | | |] eqn:G; try reflexivity.
  specialize (N k eq_refl). destruct (kw_t k); try reflexivity. congruence.
Qed.
Lemma sentence_plain : forall type part now next items, Sentence type part now next items -> Forall (fun i => no_remarks (gi_group i)) (map (shown_as part) items).
Proof.
  intros type part now next items H. induction H as [|ws g items I Pl H IH|u items v c Sh Av Ac Sc Sv H IH]; cbn [map]; [constructor| |].
  - constructor; [|exact IH]. intros k E. cbn [shown_as gi_group snd] in E. destruct (Pl k E) as [N _]. intros X. apply N. rewrite X. cbn. auto.
  - constructor; [intros k X; discriminate X|]. constructor; [intros k X; discriminate X|exact IH].
Qed.
Lemma part_body : forall type l, Forall (fun i => no_remarks (gi_group i)) l -> part_after type l = body_part type.
Proof. intros type l F. unfold part_after. rewrite (no_remarks_is _ F). reflexivity. Qed.
Lemma remark_words_hd : forall remarks part us, ~ Wrong_range part us (hd "" (remark_words remarks)).
Proof. intros [items|] part us; [exact (no_range_remarks part us)|exact (no_range_end part us)]. Qed.
Lemma remark_groups_merged : forall type remarks a, merged (a ++ remark_groups type remarks) = (merged a ++ remark_groups type remarks)%list.
Proof.
  intros type [items|] a; cbn [remark_groups]; [|rewrite !app_nil_r; reflexivity]. rewrite merged_known by reflexivity. rewrite merged_twice. reflexivity.
Qed.
Lemma words_remarks : forall type remarks, Forall token (remark_words remarks) -> words_in (remark_groups type remarks) = remark_words remarks.
Proof.
  intros type [items|] F; [|reflexivity]. cbn [remark_groups remark_words] in *. rewrite words_in_cons, words_merged, words_items by exact (Forall_inv_tail F). reflexivity.
Qed.
Lemma insert_rest : forall type now body remarks w A B, in_report (body_part type) -> foreign w -> well_formed type now body remarks ->
  Forall token (text_of body ++ remark_words remarks) -> ends_texted A ->
  (merged (map (shown_as (body_part type)) body) ++ remark_groups type remarks = A ++ B)%list ->
  exists body' remarks', well_formed type now body' remarks'
    /\ (merged (map (shown_as (body_part type)) body') ++ remark_groups type remarks')%list = merged (A ++ stranger (part_after type A) w :: B)
    /\ (text_of body' ++ remark_words remarks')%list = (words_in A ++ w :: words_in B)%list
    /\ (text_of body ++ remark_words remarks)%list = (words_in A ++ words_in B)%list
    /\ forall x, hd_error (text_of body') = Some x -> x = w \/ hd_error (text_of body) = Some x.
Proof.
  intros type now body remarks w A B P F [Wb Wr] Tk T E. apply Forall_app in Tk. destruct Tk as [Tb Tr].
  assert (Pl : Forall (fun i => no_remarks (gi_group i)) (merged (map (shown_as (body_part type)) body))).
  { apply merged_forall; [intros k X; discriminate X|]. exact (sentence_plain _ _ _ _ _ Wb). }
  assert (Inner : forall C, merged (map (shown_as (body_part type)) body) = (A ++ C)%list -> B = (C ++ remark_groups type remarks)%list ->
    exists body' remarks', well_formed type now body' remarks'
    /\ (merged (map (shown_as (body_part type)) body') ++ remark_groups type remarks')%list = merged (A ++ stranger (part_after type A) w :: B)
    /\ (text_of body' ++ remark_words remarks')%list = (words_in A ++ w :: words_in B)%list
    /\ (text_of body ++ remark_words remarks)%list = (words_in A ++ words_in B)%list
    /\ forall x, hd_error (text_of body') = Some x -> x = w \/ hd_error (text_of body) = Some x).
  { intros C EC ->. destruct (insert_part _ _ _ _ w _ _ _ P F (remark_words_hd remarks _) Wb EC T Tb) as (new & S & M & Tn & Tt & Nn).
    exists new, remarks. rewrite EC in Pl. apply Forall_app in Pl. destruct Pl as [Pl _]. rewrite (part_body _ _ Pl). split; [|split; [|split; [|split]]].
    - split; [exact S|]. destruct remarks; [exact Wr|exact Nn].
    - rewrite M. change (A ++ stranger (body_part type) w :: C ++ remark_groups type remarks)%list with (A ++ (stranger (body_part type) w :: C) ++ remark_groups type remarks)%list.
      rewrite app_assoc, remark_groups_merged. reflexivity.
    - rewrite Tn, words_in_app, (words_remarks _ _ Tr), <- app_assoc. reflexivity.
    - rewrite Tt, words_in_app, (words_remarks _ _ Tr), <- app_assoc. reflexivity.
    - intros x X. rewrite Tn in X. rewrite Tt. destruct (words_in A) as [|y l]; cbn [app hd_error] in *; [left; congruence|right; exact X]. }
  apply app_eq_app in E. destruct E as (C & [[E1 E2]|[E1 E2]]); [exact (Inner C E1 E2)|].
  destruct C as [|k C]; [rewrite app_nil_r in E1; apply (Inner []); [rewrite app_nil_r; congruence|exact (eq_sym E2)]|]. clear Inner.
  destruct remarks as [items|]; [|discriminate E2]. cbn [remark_groups remark_words] in *. injection E2 as <- E2.
  assert (TC : ends_texted C) by (intros l i ->; apply (T (merged (map (shown_as (body_part type)) body) ++ mkGroupInfo (keyword Kw_RMK) (body_part type) "RMK" :: l)%list); rewrite E1, <- app_assoc; reflexivity).
  destruct (insert_part _ _ _ _ w _ _ _ (or_intror (or_intror eq_refl)) F (no_range_end _) Wr E2 TC (Forall_inv_tail Tr)) as (new & S & M & Tn & Tt & Nn).
  exists body, (Some new). subst A. cbn [remark_groups remark_words].
  assert (Pa : part_after type (merged (map (shown_as (body_part type)) body) ++ mkGroupInfo (keyword Kw_RMK) (body_part type) "RMK" :: C) = RP_RMK).
  { unfold part_after. rewrite existsb_app. cbn [existsb is_remarks gi_group keyword kw_t]. rewrite orb_true_r. reflexivity. }
  rewrite Pa, <- !app_assoc. cbn [app]. split; [split; [exact Wb|exact S]|]. split; [|split; [|split]].
  - rewrite merged_known by reflexivity. rewrite merged_twice, M. reflexivity.
  - rewrite words_in_app, words_in_cons, words_merged, (words_items _ _ Tb), Tn. rewrite <- app_assoc. reflexivity.
  - rewrite words_in_app, words_in_cons, words_merged, (words_items _ _ Tb), Tt. rewrite <- app_assoc. reflexivity.
  - auto.
Qed.
Lemma header_split : forall (H T A B : list GroupInfo), (H ++ T = A ++ B)%list -> Forall (fun i => gi_reportPart i = RP_HEADER) H -> (forall i, In i B -> gi_reportPart i <> RP_HEADER) ->
  exists A', A = (H ++ A')%list /\ T = (A' ++ B)%list.
Proof.
  intros H T A B E Fh Fb. apply app_eq_app in E. destruct E as (C & [[-> ->]|[-> ->]]); [|eauto].
  destruct C as [|i C]; [exists []; rewrite !app_nil_r; auto|]. exfalso. apply (Fb i); [left; reflexivity|]. apply Forall_app in Fh. exact (Forall_inv (proj2 Fh)).
Qed.
Lemma header_parts : forall items, Forall (fun i => gi_reportPart i = RP_HEADER) (header_groups items).
Proof. intros items. unfold header_groups. apply Forall_map, Forall_forall. reflexivity. Qed.
Definition plain_header (item : string * Group) : Prop := is_fallback (snd item) = false /\ no_remarks (snd item).
Lemma header_location : forall i, location i -> plain_header i.
Proof. intros i [_ E]. split; rewrite E; [reflexivity|intros k X; discriminate X]. Qed.
Lemma header_issued : forall i t, issued i t -> plain_header i.
Proof. intros i t (s & _ & _ & E). split; rewrite E; [reflexivity|intros k X; discriminate X]. Qed.
Lemma header_span : forall i, forecast_span i -> plain_header i.
Proof. intros i (a & b & f & u & _ & _ & _ & E). split; rewrite E; [reflexivity|intros k X; discriminate X]. Qed.
Lemma header_type : forall type word k, type_word type word k -> plain_header (word, keyword k).
Proof.
  intros type word k H. split; [reflexivity|]. intros x X. injection X as <-. cbn [kw_t].
  destruct H as [(_ & [H|[H|[]]])|(_ & _ & ->)]; try (injection H as _ <-); discriminate.
Qed.
Lemma header_correction : forall type items, correction type items -> Forall plain_header items.
Proof.
  intros type items [->|[->|[_ ->]]]; repeat constructor; intros x X; injection X as <-; discriminate.
Qed.
Lemma header_plain : forall type now header, Header type now header -> Forall plain_header header.
Proof.
  intros type now header H. destruct H as [word k items loc time t Ty Co Lo Is|word k items loc time t span Ty Co Lo Is Sp|word k items loc span Ty Co Lo Sp|loc time t span Lo Is Sp]; cbn [app];
  repeat match goal with
  | |- Forall _ (items ++ _) => apply Forall_app; split; [eapply header_correction; eassumption|]
  | |- Forall _ (_ :: _) => constructor
  | |- Forall _ [] => constructor
  | |- plain_header _ => first [eapply header_type; eassumption|apply header_location; assumption|eapply header_issued; eassumption|apply header_span; assumption]
  end.
Qed.
Lemma header_type_part : forall type now header, Header type now header -> in_report (body_part type).
Proof. intros type now header H. destruct H; unfold in_report; cbn; auto. Qed.
Lemma insert_header : forall type header w A B, Forall plain_header header ->
  merged ((header_groups header ++ A) ++ stranger (part_after type (header_groups header ++ A)) w :: B) = (header_groups header ++ merged (A ++ stranger (part_after type A) w :: B))%list.
Proof.
  intros type header w A B F. assert (E : part_after type (header_groups header ++ A) = part_after type A).
  { unfold part_after. rewrite existsb_app, no_remarks_is; [reflexivity|]. unfold header_groups. apply Forall_map. eapply Forall_impl; [|exact F]. intros i H. apply H. }
  rewrite E, <- app_assoc. apply merged_header. unfold header_groups. apply Forall_map. eapply Forall_impl; [|exact F]. intros i H. apply H.
Qed.
Lemma ends_after : forall a b, ends_texted (a ++ b) -> ends_texted b.
Proof. intros a b T l i ->. apply (T (a ++ l)%list). rewrite app_assoc. reflexivity. Qed.
Lemma insert_report : forall words type now groups n w A B, Report words type now groups n -> Forall token words -> foreign w -> groups = (A ++ B)%list -> place A B ->
  words = (words_in A ++ words_in B)%list /\ Report (words_in A ++ w :: words_in B)%list type now (merged (A ++ stranger (part_after type A) w :: B)) (S n).
Proof.
  intros words type now groups n w A B R Tk F G (Pb & Pn & Pt).
  destruct R as [type now header body remarks H W|loc time t body remarks Lo Is W Fi|type now items k word part N].
  - apply Forall_app in Tk. destruct Tk as [Th Tk]. destruct (header_split _ _ _ _ G (header_parts _) Pb) as (A' & -> & E).
    destruct (insert_rest _ _ _ _ w _ _ (header_type_part _ _ _ H) F W Tk (ends_after _ _ Pt) E) as (body' & remarks' & W' & M & Tn & Tt & _).
    rewrite (insert_header _ _ _ _ _ (header_plain _ _ _ H)), <- M, words_in_app, (words_header _ Th), <- !(app_assoc (map fst header)), <- Tn, <- Tt. split; [reflexivity|].
    replace (S (length (map fst header ++ text_of body ++ remark_words remarks))) with (length (map fst header ++ text_of body' ++ remark_words remarks')).
    + exact (Report_typed _ _ _ _ _ H W').
    + rewrite Tn, Tt, !app_length. cbn [length]. lia.
  - apply (Forall_app token [fst loc; fst time]) in Tk. destruct Tk as [Th Tk]. destruct (header_split _ _ _ _ G (header_parts _) Pb) as (A' & -> & E).
    destruct (insert_rest RT_METAR _ _ _ w _ _ (or_introl eq_refl) F W Tk (ends_after _ _ Pt) E) as (body' & remarks' & W' & M & Tn & Tt & Hd).
    assert (Ph : Forall plain_header [loc; time]) by (constructor; [exact (header_location _ Lo)|constructor; [exact (header_issued _ _ Is)|constructor]]).
    rewrite (insert_header _ _ _ _ _ Ph), <- M, words_in_app, (words_header [loc; time] Th), <- !(app_assoc (map fst [loc; time])), <- Tn, <- Tt. split; [reflexivity|]. cbn [map].
    replace (S (length ([fst loc; fst time] ++ text_of body ++ remark_words remarks))) with (length ([fst loc; fst time] ++ text_of body' ++ remark_words remarks')).
    + refine (Report_untyped _ _ _ _ _ Lo Is W' _). intros x X. destruct (Hd x X) as [->|X']; [|exact (Fi x X')]. destruct F as [F _]. split.
      * intros ->. apply F, clean_word. reflexivity.
      * intros Ma. apply F, clean_word. eapply matches_clean; [exact Ma|vm_compute; reflexivity].
    + rewrite Tn, Tt, !app_length. cbn [length]. lia.
  - exfalso. refine (Pn (mkGroupInfo (keyword k) part word) _ _); [rewrite <- G; apply in_elt|]. inversion N; subst; unfold is_nothing; cbn; auto.
Qed.

(** ** The attributes of the report *)
Definition knowns (l : list GroupInfo) : list Group := filter (fun g => negb (is_fallback g)) (map gi_group l).
Lemma knowns_app : forall a b, knowns (a ++ b) = (knowns a ++ knowns b)%list.
Proof. intros a b. unfold knowns. rewrite map_app. apply filter_app. Qed.
Lemma knowns_cons : forall a b, knowns (a :: b) = ((if is_fallback (gi_group a) then [] else [gi_group a]) ++ knowns b)%list.
Proof. intros a b. unfold knowns. cbn [map filter]. destruct (is_fallback (gi_group a)); reflexivity. Qed.
Lemma knowns_merged : forall l, knowns (merged l) = knowns l.
Proof.
  induction l as [|a l IH]; [reflexivity|]. rewrite merged_cons, (knowns_cons a l), <- IH. destruct (merged l) as [|b r]; [rewrite knowns_cons; reflexivity|].
  destruct (both_unknown a b) eqn:U; [|rewrite knowns_cons; reflexivity]. apply both_unknown_eq in U. destruct U as [Ua Ub]. rewrite Ua, !knowns_cons, Ub, glue_unknown. reflexivity.
Qed.
Lemma latest_knowns : forall T (f : Group -> option T) l, silent f -> latest f (V (rev l)) = fold_left (fun acc g => match f g with Some x => Some x | None => acc end) (knowns l) None.
Proof.
  intros T f l S. rewrite latest_V by exact S. rewrite fold_left_rev_right. generalize (@None T). induction l as [|i l IH]; intros o; [reflexivity|].
  cbn [fold_left]. rewrite IH, knowns_cons. destruct (is_fallback (gi_group i)) eqn:U; [|reflexivity]. cbn [app]. rewrite S; [reflexivity|]. destruct (gi_group i); try discriminate U. reflexivity.
Qed.
Lemma earliest_knowns : forall T (f : Group -> option T) l, silent f -> earliest f (V (rev l)) = fold_left (fun acc g => match acc with Some x => Some x | None => f g end) (knowns l) None.
Proof.
  intros T f l S. rewrite earliest_V by exact S. rewrite fold_left_rev_right. generalize (@None T). induction l as [|i l IH]; intros o; [reflexivity|].
  cbn [fold_left]. rewrite IH, knowns_cons. destruct (is_fallback (gi_group i)) eqn:U; [|reflexivity]. cbn [app]. f_equal. destruct o; [reflexivity|]. apply S. destruct (gi_group i); try discriminate U. reflexivity.
Qed.
Lemma view_knowns : forall l l', knowns l = knowns l' -> md_view (V (rev l)) = md_view (V (rev l')).
Proof.
  intros l l' E. unfold md_view, kw. rewrite !latest_knowns, !earliest_knowns, E; [reflexivity|..]; auto using silent_kw, silent_loc, silent_time, silent_corr, silent_span.
Qed.

Lemma foreign_word : forall sgn report limit r, parse sgn report limit = Ok r -> md_error (pr_metadata r) = RE_NONE ->
  forall before after w, pr_groups r = (before ++ after)%list -> place before after -> foreign w ->
  forall report' limit', report_groups sgn report' = (words_in before ++ w :: words_in after)%list -> (limit < limit')%nat ->
  exists r', parse sgn report' limit' = Ok r' /\ pr_metadata r' = pr_metadata r
    /\ pr_groups r' = merged (before ++ mkGroupInfo (GUnknown mkUnknown) (part_after (md_type (pr_metadata r)) before) w :: after).
Proof.
  intros sgn report limit r P E before after w G Pl F report' limit' G' L.
  destruct (proj1 (report_iff sgn report limit (md_type (pr_metadata r)) (md_reportTime (pr_metadata r)) (pr_groups r))) as (n & R & Ln).
  { exists r. split; [exact P|]. repeat split. exact E. }
  destruct (insert_report _ _ _ _ _ w _ _ R (report_tokens sgn report) F G Pl) as [_ R']. rewrite <- G' in R'.
  assert (L' : (S n < limit')%nat) by lia.
  destruct (proj2 (report_iff sgn report' limit' _ _ _) (ex_intro _ (S n) (conj R' L'))) as (r' & P' & Gr & Ty & Er & Ti).
  exists r'. split; [exact P'|]. split; [|exact Gr].
  rewrite (metadata_view _ _ _ _ P), (metadata_view _ _ _ _ P'), Ty, Er, E. f_equal. apply view_knowns. rewrite Gr, G, knowns_merged, !knowns_app, knowns_cons. reflexivity.
Qed.
