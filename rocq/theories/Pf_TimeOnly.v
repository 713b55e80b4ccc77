(** Of what was read before, only the time of the report matters when a word is read. *)
From Verif Require Import Prim Lib Regex Float Values Weather Groups1 Groups2 Groups3 Groups4 Parser.
From Verif Require Import Pf_Ok Pf_Kinds.
Local Open Scope string_scope.

Lemma precipitation_time : forall s part md md', md_reportTime md = md_reportTime md' ->
  PrecipitationGroup_parse s part md = PrecipitationGroup_parse s part md'.
Proof. intros s part md md' E. unfold PrecipitationGroup_parse. rewrite E. reflexivity. Qed.
Lemma weather_time : forall s part md md', md_reportTime md = md_reportTime md' ->
  WeatherGroup_parse s part md = WeatherGroup_parse s part md'.
Proof. intros s part md md' E. unfold WeatherGroup_parse. rewrite E. reflexivity. Qed.
Theorem parse_time : forall p s part md md', In p alternatives -> md_reportTime md = md_reportTime md' ->
  p s part md = p s part md'.
Proof.
  intros p s part md md' I E. unfold alternatives in I. cbn [In] in I.
  repeat (destruct I as [<-|I]; [unfold alternative; first [rewrite (precipitation_time s part md md' E) | rewrite (weather_time s part md md' E) | idtac]; reflexivity|]). destruct I.
Qed.
Theorem append_time : forall g s part md md', md_reportTime md = md_reportTime md' ->
  Group_append g s part md = Group_append g s part md'.
Proof.
  intros g s part md md' E. destruct g; cbn [Group_append]; f_equal; try reflexivity.
  - unfold WindGroup_append, Wind_appendWindShift, Wind_appendPeakWind. rewrite E. reflexivity.
Qed.
