(** Proofs for C70: numbers of miscellaneous groups *)
From Coq Require Import Lia Lqa ZArith NArith QArith Qabs String Ascii List.
From Verif Require Import Prim Lib Float Values Weather Groups1 Groups2 Groups3 Groups4 Parser Format Explain SpecDecimal SpecReal SpecShown SpecStream.
From Verif Require Import Pf_ExNumber Pf_Stream.
Import ListNotations.
Local Open Scope string_scope.
Lemma misc_text : forall t x part raw before after, number_texts t = Some (before, after) -> flt_is_zero x = false ->
  visit_Misc (mkMisc t (Some x) MsI_NONE) part raw = Ok (before ++ stream_flt x ++ after).
Proof.
  intros t x part raw before after H Z. destruct t; try discriminate H; injection H as <- <-; unfold visit_Misc; cbn [ms_type ms_data validity MiscGroup_isValid ms_inc MsInc_beq deref bind say put negb has_value]; rewrite ?Z; cbn [negb say put bind]; rewrite ?app_empty_r; try reflexivity.
Qed.
Lemma misc_zero : forall part raw s, visit_Misc (mkMisc Ms_SUNSHINE_DURATION_MINUTES (Some (S754_zero s)) MsI_NONE) part raw = Ok "No sunshine occurred the previous calendar day".
Proof. reflexivity. Qed.
Lemma misc_shown : forall t x q part raw before after, number_texts t = Some (before, after) -> flt_value x = Some q -> (ten_to (-45) <= Qabs q)%Q -> (Qabs q < ten_to 45)%Q ->
  exists n v, visit_Misc (mkMisc t (Some x) MsI_NONE) part raw = Ok (before ++ (if Qlt_le_dec q 0 then "-" else "") ++ n ++ after) /\ stands_for n v /\ six_digits v (Qabs q).
Proof.
  intros t x q part raw before after H V L U. destruct (stream_shown x q V L U) as (n & v & E & S & X). exists n, v. split; [|split; assumption].
  rewrite (misc_text t x part raw before after H).
  - rewrite E, !app_assoc_s. reflexivity.
  - destruct x; try reflexivity. injection V as <-. exfalso. apply (Qlt_not_le _ _ (ten_pos (-45))). exact L.
Qed.
Lemma misc_whole : forall t n part raw before after, number_texts t = Some (before, after) -> (0 < n < 1000000)%N ->
  exists a, visit_Misc (mkMisc t (Some (f32_of_N n)) MsI_NONE) part raw = Ok (before ++ a ++ after) /\ whole a n.
Proof.
  intros t n part raw before after H B. exists (stream_flt (f32_of_N n)). split; [|apply whole_stream; lia]. apply misc_text; [exact H|].
  destruct (Pf_Whole.of_N_exact n ltac:(lia)) as (q & V & E). destruct (f32_of_N n); try reflexivity. injection V as <-. exfalso.
  unfold parts, Qeq in E; cbn in E. lia.
Qed.
