(** Proofs of C88. *)
From Coq Require Import String List ZArith Bool.
From Verif Require Import Prim Lib Float Values Weather Groups1 Groups2 Groups3 Groups4 Parser Summary Explain
  SpecTokens SpecText SpecSentence SpecForeign SpecStray.
From Verif Require Import SpecSumNumbers SpecExplain Pf_ExBreaks Pf_ExTable.
From Verif Require Import Pf_Limit Pf_Shape Pf_Steps Pf_Grammar2 Pf_Reading Pf_Foreign.
Import ListNotations.
Local Open Scope string_scope.

(** ** The summary does not look at unknown groups *)
Definition known (l : list Group) : list Group := filter (fun g => negb (is_fallback g)) l.
Ltac same IH :=
  repeat match goal with
  | |- (if ?b then _ else _) = _ => destruct b
  | |- bind ?x _ = bind ?x _ => destruct x; cbn [bind]
  end; first [apply IH|reflexivity].
Lemma metar_known : forall pow imperial l wind w, metar_loop pow imperial wind (known l) w = metar_loop pow imperial wind l w.
Proof.
  intros pow imperial l. induction l as [|g l IH]; intros wind w; [reflexivity|].
  destruct g; cbn [known filter is_fallback negb metar_loop]; fold (known l); same IH.
Qed.
Lemma taf_known : forall imperial l n w, taf_loop imperial n (known l) w = taf_loop imperial n l w.
Proof.
  intros imperial l. induction l as [|g l IH]; intros n w; [reflexivity|].
  destruct g; cbn [known filter is_fallback negb taf_loop]; fold (known l); same IH.
Qed.
Lemma minmax_known : forall l low high, minmax_loop (known l) low high = minmax_loop l low high.
Proof. intros l. induction l as [|g l IH]; intros low high; [reflexivity|]. destruct g; cbn [known filter is_fallback negb minmax_loop]; fold (known l); apply IH. Qed.
Lemma release_known : forall l w y m d, reportReleaseTime w (known l) y m d = reportReleaseTime w l y m d.
Proof. intros l. induction l as [|g l IH]; intros w y m d; [reflexivity|]. destruct g; cbn [known filter is_fallback negb reportReleaseTime]; fold (known l); apply IH. Qed.

(** ** The same groups but unknown ones *)
Lemma known_merged : forall l, known (map gi_group (merged l)) = known (map gi_group l).
Proof.
  intros l. induction l as [|a l IH]; [reflexivity|]. rewrite merged_cons. cbn [map known filter]. fold (known (map gi_group l)). rewrite <- IH.
  destruct (merged l) as [|b r]; [reflexivity|]. destruct (both_unknown a b) eqn:B; [|reflexivity].
  pose proof (both_unknown_eq _ _ B) as [Ha Hb]. cbn [map known filter]. fold (known (map gi_group r)). rewrite Ha, Hb. reflexivity.
Qed.
Lemma known_app : forall a b, known (a ++ b) = (known a ++ known b)%list.
Proof. intros a b. apply filter_app. Qed.
Lemma known_with : forall before after part w,
  known (map gi_group (merged (before ++ mkGroupInfo (GUnknown mkUnknown) part w :: after))) = known (map gi_group (before ++ after)).
Proof. intros before after part w. rewrite known_merged, !map_app, !known_app. reflexivity. Qed.
Lemma merged_empty : forall l, merged l = [] <-> l = [].
Proof. intros l. split; [apply merged_nil|intros ->; reflexivity]. Qed.
Lemma not_empty : forall sgn report limit r, parse sgn report limit = Ok r -> md_error (pr_metadata r) = RE_NONE -> pr_groups r <> [].
Proof.
  intros sgn report limit r E N G. destruct (raw_text_conserved _ _ _ _ E) as (rest & W & X). rewrite (X N), app_nil_r in W.
  unfold words_of_result in W. rewrite G in W. cbn [flat_map] in W. apply (empty_report_iff _ _ _ _ E) in W. congruence.
Qed.

(** ** Both reports *)
Lemma word_added : forall sgn report report' w before after, foreign w -> with_word sgn report report' w before after ->
  exists r r', parse sgn report default_groupLimit = Ok r /\ parse sgn report' default_groupLimit = Ok r' /\ md_error (pr_metadata r) = RE_NONE
    /\ pr_metadata r' = pr_metadata r /\ pr_groups r = (before ++ after)%list
    /\ pr_groups r' = merged (before ++ mkGroupInfo (GUnknown mkUnknown) (part_after (md_type (pr_metadata r)) before) w :: after).
Proof.
  intros sgn report report' w before after F (r & E & N & G & P & W).
  destruct (foreign_word sgn report _ r E N before after w G P F report' default_groupLimit W) as (r' & E' & M & G').
  { unfold default_groupLimit. apply Nat.ltb_lt. vm_compute. reflexivity. }
  exists r, r'. repeat (apply conj); try assumption. apply (limit_monotone sgn report (default_groupLimit - 1)); [apply Nat.le_sub_l|exact E|]. rewrite N. discriminate.
Qed.
Lemma report_known : forall sgn report report' type, stray sgn report report' ->
  exists l l', parseReport sgn report type = Ok l /\ parseReport sgn report' type = Ok l' /\ known l = known l' /\ (l = [] <-> l' = []).
Proof.
  intros sgn report report' type (w & before & after & F & W). destruct (word_added _ _ _ _ _ _ F W) as (r & r' & E & E' & N & M & G & G').
  unfold parseReport. rewrite E, E'. cbn [bind]. rewrite M.
  destruct (negb (ReportType_beq (md_type (pr_metadata r)) type) || negb (ReportError_beq (md_error (pr_metadata r)) RE_NONE)) eqn:B.
  - exists [], []. repeat split.
  - exists (map gi_group (pr_groups r)), (map gi_group (pr_groups r')). do 2 (split; [reflexivity|]). split.
    + rewrite G, G'. symmetry. apply known_with.
    + split; intros Z; apply map_eq_nil in Z; exfalso; [exact (not_empty _ _ _ _ E N Z)|]. refine (not_empty _ _ _ _ E' _ Z). rewrite M. exact N.
Qed.
Lemma report_same : forall sgn report report' type, (report' = report \/ stray sgn report report') ->
  (exists l l', parseReport sgn report type = Ok l /\ parseReport sgn report' type = Ok l' /\ known l = known l' /\ (l = [] <-> l' = []))
  \/ exists e, parseReport sgn report type = Bad e /\ parseReport sgn report' type = Bad e.
Proof.
  intros sgn report report' type [-> |S]; [|left; apply report_known, S].
  destruct (parseReport sgn report type) as [l|e]; [left; exists l, l; repeat split; intros; assumption|right; exists e; split; reflexivity].
Qed.
Theorem summary_stray : forall pow sgn metar metar' taf taf' year month day imperial,
  metar' = metar \/ stray sgn metar metar' -> taf' = taf \/ stray sgn taf taf' ->
  getCurrentWeather pow sgn metar' taf' year month day imperial = getCurrentWeather pow sgn metar taf year month day imperial.
Proof.
  intros pow sgn metar metar' taf taf' year month day imperial M T. unfold getCurrentWeather.
  destruct (report_same sgn metar metar' RT_METAR M) as [(m & m' & -> & -> & KM & NM)|(e & -> & ->)]; [|reflexivity].
  destruct (report_same sgn taf taf' RT_TAF T) as [(t & t' & -> & -> & KT & NT)|(e & -> & ->)]; [|reflexivity].
  cbn [bind]. clear M T.
  assert (A : forall w, temperatureForecastFromTaf w t' imperial = temperatureForecastFromTaf w t imperial).
  { intros w. unfold temperatureForecastFromTaf. rewrite <- (minmax_known t'), <- KT, minmax_known. reflexivity. }
  assert (B : match m' with
    | _ :: _ => let! w := currentWeatherFromMetar pow imperial m' in Ok (reportReleaseTime w m' year month day)
    | [] => let! w := currentWeatherFromTaf imperial t' in Ok (reportReleaseTime w t' year month day)
    end = match m with
    | _ :: _ => let! w := currentWeatherFromMetar pow imperial m in Ok (reportReleaseTime w m year month day)
    | [] => let! w := currentWeatherFromTaf imperial t in Ok (reportReleaseTime w t year month day)
    end).
  { destruct m as [|g m0].
    - rewrite (proj1 NM eq_refl). unfold currentWeatherFromTaf. rewrite <- (taf_known imperial t'), <- KT, taf_known.
      destruct (taf_loop imperial 0 t cw_default) as [w|]; cbn [bind]; [|reflexivity]. rewrite <- (release_known t'), <- KT, release_known. reflexivity.
    - destruct m' as [|g' m0']; [discriminate (proj2 NM eq_refl)|]. unfold currentWeatherFromMetar. rewrite <- (metar_known pow imperial (g' :: m0')), <- KM, metar_known.
      destruct (metar_loop pow imperial Speed_default (g :: m0) cw_default) as [w|]; cbn [bind]; [|reflexivity]. rewrite <- (release_known (g' :: m0')), <- KM, release_known. reflexivity. }
  rewrite B. match goal with |- bind ?x _ = bind ?x _ => destruct x as [w|]; cbn [bind]; [apply A|reflexivity] end.
Qed.

(** ** The explanation *)
Lemma merged_id : forall l, no_two_adjacent is_unknown l -> merged l = l.
Proof.
  intros l. induction l as [|a l IH]; intros N; [reflexivity|]. rewrite merged_cons. destruct l as [|b l]; [reflexivity|].
  destruct N as [N M]. rewrite (IH M). destruct (both_unknown a b) eqn:B; [|reflexivity]. exfalso. apply N. apply both_unknown_eq in B. exact B.
Qed.
Lemma adjacent_insert : forall u before after, no_two_adjacent is_unknown (before ++ after) -> alone before after -> no_two_adjacent is_unknown (before ++ u :: after).
Proof.
  intros u before after. induction before as [|a before IH]; intros N [A B]; cbn [app] in *.
  - destruct after as [|b after]; [exact I|]. split; [|exact N]. intros [_ X]. rewrite (B after b eq_refl) in X. discriminate X.
  - assert (T : no_two_adjacent is_unknown (before ++ u :: after)).
    { apply IH; [|split; [|exact B]].
      - destruct (before ++ after)%list; [exact I|exact (proj2 N)].
      - intros l i E. apply (A (a :: l) i). rewrite E. reflexivity. }
    destruct before as [|b before]; cbn [app] in *.
    + split; [|exact T]. intros [X _]. rewrite (A [] a eq_refl) in X. discriminate X.
    + split; [exact (proj1 N)|exact T].
Qed.
Lemma combine_both : forall {A B} (a b : list A) (c d : list B), length a = length c -> combine (a ++ b) (c ++ d) = (combine a c ++ combine b d)%list.
Proof.
  intros A B a. induction a as [|x a IH]; intros b [|y c] d L; try discriminate L; [reflexivity|]. cbn [combine app]. rewrite IH; [reflexivity|]. injection L as L. exact L.
Qed.
Lemma combine_fst : forall {A B} (a : list A) (c : list B), length a = length c -> map fst (combine a c) = a.
Proof. intros A B a. induction a as [|x a IH]; intros [|y c] L; try discriminate L; [reflexivity|]. cbn [combine map fst]. rewrite IH; [reflexivity|]. injection L as L. exact L. Qed.
Lemma same_length : forall {A B} (R : A -> B -> Prop) a b, Forall2 R a b -> length a = length b.
Proof. intros A B R a b F. induction F; [reflexivity|]. cbn [length]. f_equal. assumption. Qed.
Theorem explain_stray : forall pow, pow_tame pow -> forall sgn report report' w before after t, foreign w -> with_word sgn report report' w before after -> alone before after ->
  explain pow sgn report = Ok t ->
  exists above below, t = table (above ++ below) /\ map fst above = "&nbsp;" :: map gi_rawString before /\ map fst below = map gi_rawString after
    /\ explain pow sgn report' = Ok (table (above ++ (w, "Not recognised by parser: " ++ with_breaks w) :: below)).
Proof.
  intros pow P sgn report report' w before after t F W A H. destruct (word_added _ _ _ _ _ _ F W) as (r & r' & E & E' & N & M & G & G').
  destruct (explain_table pow P sgn report t H) as (p & texts & Ep & T & ->). rewrite E in Ep. apply ok_same in Ep. subst p.
  rewrite G in T. apply Forall2_app_inv_l in T. destruct T as (ta & tb & Ta & Tb & ->).
  rewrite merged_id in G' by (apply adjacent_insert; [rewrite <- G; exact (unknown_merged _ _ _ _ E)|exact A]).
  set (u := mkGroupInfo (GUnknown mkUnknown) (part_after (md_type (pr_metadata r)) before) w) in *.
  assert (T' : Forall2 (fun i x => says pow i = Ok x) (pr_groups r') (ta ++ ("Not recognised by parser: " ++ w) :: tb)).
  { rewrite G'. apply Forall2_app; [exact Ta|]. constructor; [|exact Tb]. cbn. rewrite app_empty_r. reflexivity. }
  exists (("&nbsp;", "Detected report type: " ++ type_text (md_type (pr_metadata r))) :: combine (map gi_rawString before) (map with_breaks ta)),
    (combine (map gi_rawString after) (map with_breaks tb)).
  assert (La : length (map gi_rawString before) = length (map with_breaks ta)) by (rewrite !map_length; exact (same_length _ _ _ Ta)).
  assert (Lb : length (map gi_rawString after) = length (map with_breaks tb)) by (rewrite !map_length; exact (same_length _ _ _ Tb)).
  split; [|split; [|split]].
  - unfold report_rows. rewrite N, G, !map_app, (combine_both _ _ _ _ La). reflexivity.
  - cbn [map fst]. rewrite (combine_fst _ _ La). reflexivity.
  - exact (combine_fst _ _ Lb).
  - rewrite (table_ok _ _ _ _ _ E' T'). unfold report_rows. rewrite M, N, G', !map_app, (combine_both _ _ _ _ La). reflexivity.
Qed.

(** ** An example *)
Definition stray_example (before after : list GroupInfo) : Prop :=
  foreign "a_b" /\ alone before after /\ words_in before = ["METAR"; "ZZZZ"; "010000Z"; "24015KT"]
  /\ with_word true "METAR ZZZZ 010000Z 24015KT 1 1/2SM -RA OVC010 RMK PK WND 28045/15" "METAR ZZZZ 010000Z 24015KT a_b 1 1/2SM -RA OVC010 RMK PK WND 28045/15="
       "a_b" before after.
Lemma example_stray : exists before after, stray_example before after.
Proof.
  destruct (parse true "METAR ZZZZ 010000Z 24015KT 1 1/2SM -RA OVC010 RMK PK WND 28045/15" (default_groupLimit - 1)) as [r|] eqn:E; [|vm_compute in E; discriminate E].
  assert (R := E). vm_compute in R. apply ok_same in R.
  exists (firstn 4 (pr_groups r)), (skipn 4 (pr_groups r)). split; [|split; [|split]].
  - split.
    + intros H. specialize (H "a" "_"%char "b" eq_refl). discriminate H.
    + intros [t X]. discriminate X.
  - rewrite <- R. split; intros l i X.
    + destruct l as [|? [|? [|? [|? [|]]]]]; try discriminate X; injection X; intros; subst; reflexivity.
    + injection X; intros; subst; reflexivity.
  - rewrite <- R. vm_compute. reflexivity.
  - exists r. split; [exact E|]. split; [rewrite <- R; reflexivity|]. split; [rewrite firstn_skipn; reflexivity|]. split.
    + rewrite <- R. split; [|split].
      * intros i I. cbn [In skipn pr_groups] in I. repeat (destruct I as [<-|I]; [discriminate|]). destruct I.
      * intros i I. cbn [In app firstn skipn pr_groups] in I. repeat (destruct I as [<-|I]; [cbn; intuition discriminate|]). destruct I.
      * intros l i X. destruct l as [|? [|? [|? [|? [|]]]]]; try discriminate X; injection X; intros; subst; discriminate.
    + rewrite <- R. vm_compute. reflexivity.
Qed.
