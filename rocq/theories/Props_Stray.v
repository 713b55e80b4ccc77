(** C88: a word which is not understood changes neither the summary nor the other rows of the explanation. *)
From Coq Require Import String List ZArith.
From Verif Require Import Prim Float Values Weather Groups1 Groups2 Groups3 Groups4 Parser Summary Explain.
From Verif Require Import SpecSumNumbers SpecExplain SpecText SpecForeign SpecStray Pf_Stray.
Import ListNotations.
Local Open Scope string_scope.

(** The summary is the same if such a word is added to the METAR, to the TAF or to both. *)
Theorem C88_summary :
  forall (pow : flt -> flt -> flt) (sgn : bool) (metar metar' taf taf' : string) (year month day : Z) (imperial : bool),
    metar' = metar \/ stray sgn metar metar' -> taf' = taf \/ stray sgn taf taf' ->
    getCurrentWeather pow sgn metar' taf' year month day imperial = getCurrentWeather pow sgn metar taf year month day imperial.
Proof. exact summary_stray. Qed.
Print Assumptions C88_summary.
(** The explanation has one more row, at the place of the word, and all others unchanged. *)
Theorem C88_explanation :
  forall (pow : flt -> flt -> flt), pow_tame pow ->
  forall (sgn : bool) (report report' w : string) (before after : list GroupInfo) (t : string),
    foreign w -> with_word sgn report report' w before after -> alone before after ->
    explain pow sgn report = Ok t ->
    exists above below, t = table (above ++ below)
      /\ map fst above = "&nbsp;" :: map gi_rawString before /\ map fst below = map gi_rawString after
      /\ explain pow sgn report' = Ok (table (above ++ (w, "Not recognised by parser: " ++ with_breaks w) :: below)).
Proof. exact explain_stray. Qed.
Print Assumptions C88_explanation.
Example C88_nonvacuous :
  exists before after, foreign "a_b" /\ alone before after /\ words_in before = ["METAR"; "ZZZZ"; "010000Z"; "24015KT"]
    /\ with_word true "METAR ZZZZ 010000Z 24015KT 1 1/2SM -RA OVC010 RMK PK WND 28045/15"
         "METAR ZZZZ 010000Z 24015KT a_b 1 1/2SM -RA OVC010 RMK PK WND 28045/15=" "a_b" before after.
Proof. exact example_stray. Qed.
