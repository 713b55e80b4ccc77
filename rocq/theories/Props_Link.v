(** C97 and C98: the page of examples/explain.cpp, examples/shellfiles/explain_shell.html. *)
From Coq Require Import List String Ascii NArith.
From Verif Require Import Prim Float Explain SpecSumNumbers SpecExplain Pf_SumRefuted ExplainPage SpecLink Pf_Link Pf_LinkReturns.
Import ListNotations.
Local Open Scope N_scope.

(** *** C97: a link to the page restores it *)
(** Whatever has happened to a page, if a text which is not empty has then been explained: who opens its address sees the same
    text, the same table and the same address. *)
Theorem C97_link_partial :
  forall (pow : flt -> flt -> flt) (sgn : bool) (es : list Event) (e : Event) (f0 : list N) (st : PageState) (vs : list N),
    e <> Loaded -> on_events pow sgn (es ++ [e]) (new_page f0) = Ok st -> text_of vs (box st) -> vs <> [] ->
    on_events pow sgn [Loaded; Started] (new_page (fragment st)) = Ok st.
Proof. exact link. Qed.
Print Assumptions C97_link_partial.
(** "20" followed by a degree sign, a snowman, a linear B syllable and an end of line *)
Example C97_nonvacuous : exists st, on_events pow_one true [Loaded; Started; Edited [50; 48; 176; 9731; 55296; 56320; 10; 37]] (new_page (js "a%20b")) = Ok st
  /\ text_of [50; 48; 176; 9731; 65536; 10; 37] (box st) /\ fragment st = js "20%C2%B0%E2%98%83%F0%90%80%80%0A%25".
Proof.
  eexists. split; [vm_compute; reflexivity|]. split; [|reflexivity].
  cbn [box]. exact (utf16_text [50; 48; 176; 9731; 65536; 10; 37]
    ltac:(repeat constructor; first [left; reflexivity | right; split; reflexivity])).
Qed.
(** The address has only characters which need no escape in it. *)
Theorem C97_address :
  forall (pow : flt -> flt -> flt) (sgn : bool) (es : list Event) (e : Event) (f0 : list N) (st : PageState) (vs : list N),
    e <> Loaded -> on_events pow sgn (es ++ [e]) (new_page f0) = Ok st -> text_of vs (box st) ->
    Forall address_character (fragment st).
Proof. exact address. Qed.
Print Assumptions C97_address.
(** Different texts have different addresses. *)
Theorem C97_distinct :
  forall (pow : flt -> flt -> flt) (sgn : bool) (pow' : flt -> flt -> flt) (sgn' : bool)
    (es : list Event) (e : Event) (f0 : list N) (st : PageState) (es' : list Event) (e' : Event) (f0' : list N) (st' : PageState)
    (vs vs' : list N), e <> Loaded -> e' <> Loaded ->
    on_events pow sgn (es ++ [e]) (new_page f0) = Ok st -> text_of vs (box st) ->
    on_events pow' sgn' (es' ++ [e']) (new_page f0') = Ok st' -> text_of vs' (box st') ->
    fragment st = fragment st' -> box st = box st'.
Proof. exact distinct. Qed.
Print Assumptions C97_distinct.
(** The address of the empty text shows the sample report, *)
Theorem C97_empty_refuted :
  forall (pow : flt -> flt -> flt) (sgn : bool) (f0 : list N),
    exists st, on_events pow sgn [Edited []] (new_page f0) = Ok st /\ box st = []
      /\ forall st', on_events pow sgn [Loaded; Started] (new_page (fragment st)) = Ok st' -> box st' = sampleReportStr.
Proof. exact empty_lost. Qed.
Print Assumptions C97_empty_refuted.
(** and so does every address if the program starts before the page has been loaded; the table is that of no text. *)
Theorem C97_order_refuted :
  forall (pow : flt -> flt -> flt) (sgn : bool) (f : list N),
    exists st t, on_events pow sgn [Started; Loaded] (new_page f) = Ok st
      /\ box st = sampleReportStr /\ explain pow sgn "" = Ok t /\ shown st = Some t.
Proof. exact order_lost. Qed.
Print Assumptions C97_order_refuted.

(** *** C98: the table is the explanation of the text in the box *)
(** After whatever has happened, as soon as the page has reacted to an edit or to the start of the program, the table is what the
    program returns for the bytes of the text, as far as its first character zero. *)
Theorem C98_table_partial :
  forall (pow : flt -> flt -> flt) (sgn : bool) (es : list Event) (e : Event) (f0 : list N) (st : PageState)
    (vs ws b : list N),
    e <> Loaded -> on_events pow sgn (es ++ [e]) (new_page f0) = Ok st ->
    text_of (vs ++ ws) (box st) -> ~ In 0 vs -> (ws = [] \/ exists r, ws = 0 :: r) -> bytes_of vs b ->
    exists t, explain pow sgn (byte_string b) = Ok t /\ shown st = Some t.
Proof. exact table. Qed.
Print Assumptions C98_table_partial.
(** The box has the text of the edit. *)
Theorem C98_box :
  forall (pow : flt -> flt -> flt) (sgn : bool) (es : list Event) (text f0 : list N) (st : PageState),
    ~ In 13 text -> on_events pow sgn (es ++ [Edited text]) (new_page f0) = Ok st -> box st = text.
Proof. exact edited. Qed.
Print Assumptions C98_box.
Example C98_nonvacuous : exists st t, on_events pow_one true [Loaded; Started; Edited (js "METAR EGLL")] (new_page []) = Ok st
  /\ box st = js "METAR EGLL" /\ shown st = Some t /\ explain pow_one true "METAR EGLL" = Ok t.
Proof. eexists _, _. split; [vm_compute; reflexivity|repeat split]. Qed.
(** If the box has half of a pair of code units without the other half, the table is empty and the address is the one of
    before. *)
Theorem C98_no_text :
  forall (pow : flt -> flt -> flt) (sgn : bool) (es : list Event) (e : Event) (f0 : list N) (st1 st : PageState),
    e <> Loaded -> on_events pow sgn es (new_page f0) = Ok st1 -> on_events pow sgn (es ++ [e]) (new_page f0) = Ok st ->
    Forall (fun c => c < 65536) (box st) -> (forall vs, ~ text_of vs (box st)) ->
    shown st = None /\ fragment st = fragment st1.
Proof. exact no_text. Qed.
Print Assumptions C98_no_text.
Theorem C98_table_refuted :
  forall (pow : flt -> flt -> flt) (sgn : bool) (f0 : list N),
    exists st, on_events pow sgn [Edited (js "METAR EGLL"); Edited [55296]] (new_page f0) = Ok st
      /\ box st = [55296] /\ shown st = None /\ fragment st = js "METAR%20EGLL".
Proof. exact half_lost. Qed.
Print Assumptions C98_table_refuted.
(** There is a table after every edit, if the text does not have the beginning of a varying runway visual range without the name of
    the runway; *)
Theorem C98_returns_partial :
  forall (pow : flt -> flt -> flt) (sgn : bool) (es : list Event) (text f0 : list N) (st1 : PageState) (vs b : list N),
    pow_tame pow -> on_events pow sgn es (new_page f0) = Ok st1 ->
    ~ In 13 text -> text_of vs text -> ~ In 0 vs -> bytes_of vs b -> mentions "R///////V" (byte_string b) = false ->
    exists st, on_events pow sgn (es ++ [Edited text]) (new_page f0) = Ok st.
Proof. exact edit_returns. Qed.
Print Assumptions C98_returns_partial.
(** this ends the program with an exception. *)
Theorem C98_returns_refuted :
  forall (pow : flt -> flt -> flt) (sgn : bool) (f0 : list N),
    on_events pow sgn [Edited (js "METAR EGLL 010000Z 00000KT 9999 R///////V1000 20/10 Q1010")] (new_page f0) = Bad Throw.
Proof. exact edit_stuck. Qed.
Print Assumptions C98_returns_refuted.
