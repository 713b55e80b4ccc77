(** When the page of explain gets its table. *)
From Coq Require Import List String Ascii NArith Bool.
From Verif Require Import Lib Prim Float Summary Explain SpecReal SpecExplain SpecShown Pf_SumRefuted Pf_ExTable Pf_ExValid Pf_ExShown.
From Verif Require Import SpecSumNumbers ExplainPage SpecLink Pf_Link.
Import ListNotations.
Local Open Scope N_scope.

Lemma edit_returns pow sgn es text f0 st1 vs b : pow_tame pow ->
  on_events pow sgn es (new_page f0) = Ok st1 ->
  ~ In 13 text -> text_of vs text -> ~ In 0 vs -> bytes_of vs b -> mentions "R///////V" (byte_string b) = false ->
  exists st, on_events pow sgn (es ++ [Edited text]) (new_page f0) = Ok st.
Proof.
  intros Tame E CR T NZ By Men. rewrite events_app, E. cbn [bind on_events on_event].
  rewrite box_value_same by exact CR. apply text_utf16 in T as [F T]. unfold page_explain. cbn [box].
  rewrite T, encode_text, to_utf8_text by exact F. rewrite (bytes_of_utf8 _ _ F By) in Men.
  replace (c_string (flat_map utf8 vs)) with (byte_string (flat_map utf8 vs)).
  2:{ pose proof (c_string_app _ [] (nonzero_bytes vs NZ)) as C. rewrite app_nil_r in C. rewrite C.
      cbn [c_string]. rewrite app_empty_r. reflexivity. }
  destruct (explain_returns pow Tame sgn _ Men) as [t ->]. cbn [bind]. eexists. reflexivity.
Qed.
Lemma edit_stuck pow sgn f0 :
  on_events pow sgn [Edited (js "METAR EGLL 010000Z 00000KT 9999 R///////V1000 20/10 Q1010")] (new_page f0) = Bad Throw.
Proof.
  cbn [on_events on_event]. rewrite box_value_same
    by (vm_compute; intros I; repeat (destruct I as [I|I]; [discriminate|]); exact I).
  unfold page_explain. cbn [box].
  replace (c_string (to_utf8 (js "METAR EGLL 010000Z 00000KT 9999 R///////V1000 20/10 Q1010")))
    with "METAR EGLL 010000Z 00000KT 9999 R///////V1000 20/10 Q1010"%string by reflexivity.
  rewrite unnamed_throws. destruct (encodeURIComponent _) eqn:X; [reflexivity|vm_compute in X; discriminate].
Qed.
