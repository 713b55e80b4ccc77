(** C99: the options of the page examples/shellfiles/summary_shell.html. *)
From Coq Require Import List String NArith.
From Verif Require Import Prim SpecDecimal ExplainPage SpecLink Options SpecOptions Pf_Link Pf_Options.
Import ListNotations.
Local Open Scope N_scope.

(** *** C99: the options *)
(** Whatever the parameters of the address, if they can be decoded, exactly the unit in which the weather is shown is marked, and a
    distance is marked if and only if it is the one for which the weather is requested. *)
Theorem C99_marked_partial :
  forall (other : jstring -> Number) (query : jstring) (p : (OptionEntry * OptionEntry) * list (N * OptionEntry)),
    updateOptions other query = Ok p ->
    exists c, in_effect other query c
      /\ entry_on (fst (fst p)) = negb (imperial c) /\ entry_on (snd (fst p)) = imperial c
      /\ map fst (snd p) = offered
      /\ forall n e, In (n, e) (snd p) -> (entry_on e = true <-> distance c = Whole n).
Proof. exact marked. Qed.
Print Assumptions C99_marked_partial.
(** After any sequence of clicks on options, those in effect are the ones clicked last; a click on a unit keeps the distance, and
    a click on a distance the unit. *)
Theorem C99_clicks_partial :
  forall (other : jstring -> Number) (ks : list Click) (query : jstring) (c : Choice),
    numbers_are_read_back other -> in_effect other query c -> Forall is_offered ks ->
    exists query', follow other ks query = Ok query' /\ in_effect other query' (fold_left (fun c k => choose k c) ks c).
Proof. exact clicks. Qed.
Print Assumptions C99_clicks_partial.
Example C99_nonvacuous : numbers_are_read_back other_example
  /\ in_effect other_example (js "a=b&unit=imp%65rial&distance=7&distance=2.50") (mkChoice true (Other (js "2.5")))
  /\ follow other_example [Within 75; Metric; Imperial; Metric] (js "unit=imperial&distance=2.50") = Ok (js "distance=75")
  /\ follow other_example [Metric; Imperial] (js "distance=2.50") = Ok (js "distance=2.5&unit=imperial").
Proof. split; [exact other_example_reads|]. split; [split; reflexivity|]. split; reflexivity. Qed.
(** Without parameters: metric units, 30 miles *)
Theorem C99_default :
  forall (other : jstring -> Number), in_effect other [] (mkChoice false (Whole 30)).
Proof. exact fresh. Qed.
Print Assumptions C99_default.
(** In an address with several parameters the last one of a name counts: the units are imperial if and only if its value is
    "imperial", *)
Theorem C99_unit :
  forall (ps : list (jstring * jstring)) (query : jstring) (v : option jstring),
    query_with ps query -> Forall proper_parameter ps -> last_value (js "unit") ps v ->
    exists b, shownUnitImperial query = Ok b /\ (b = true <-> v = Some (js "imperial")).
Proof. exact unit_parameter. Qed.
Print Assumptions C99_unit.
(** and the distance is the number which is its value, or 30. *)
Theorem C99_distance :
  forall (other : jstring -> Number) (ps : list (jstring * jstring)) (query : jstring) (v : option jstring),
    query_with ps query -> Forall proper_parameter ps -> last_value (js "distance") ps v ->
    (v = None -> requestDistance other query = Ok (Whole 30))
    /\ (forall s n, v = Some (js s) -> s <> ""%string -> decimal s = Some n -> 0 < n < 9007199254740992 ->
          requestDistance other query = Ok (Whole n)).
Proof. exact distance_parameter. Qed.
Print Assumptions C99_distance.
Example C99_parameters_nonvacuous :
  let ps := [(js "unit", js "metric"); (js "a", js "&="); (js "distance", js "0140"); (js "unit", js "imperial")] in
  query_with ps (js "unit=metric&a=%26%3D&distance=0140&unit=imperial") /\ Forall proper_parameter ps
  /\ last_value (js "unit") ps (Some (js "imperial")) /\ last_value (js "distance") ps (Some (js "0140"))
  /\ decimal "0140" = Some 140.
Proof.
  cbv zeta. split.
  - apply (query_more (js "unit") (js "metric") (js "metric")); [reflexivity|].
    apply (query_more (js "a") (js "&=") (js "%26%3D")); [reflexivity|].
    apply (query_more (js "distance") (js "0140") (js "0140")); [reflexivity|].
    apply (query_one (js "unit") (js "imperial") (js "imperial")); reflexivity.
  - split; [|split; [|split; [|reflexivity]]].
    + repeat (apply Forall_cons; [split; [|split; [|]]|]); try apply Forall_nil;
        try (vm_compute; intros I; repeat (destruct I as [I|I]; [discriminate|]); exact I);
        cbn [snd]; match goal with |- exists vs, text_of vs ?s => exists s;
          exact (utf16_text s ltac:(repeat constructor; left; reflexivity)) end.
    + apply (some_value (js "unit") [(js "unit", js "metric"); (js "a", js "&="); (js "distance", js "0140")] (js "imperial") []).
      intros w [].
    + apply (some_value (js "distance") [(js "unit", js "metric"); (js "a", js "&=")] (js "0140") [(js "unit", js "imperial")]).
      intros w [I|[]]. discriminate I.
Qed.
(** A parameter that cannot be decoded stops the page before any option is shown. *)
Theorem C99_marked_refuted :
  forall (other : jstring -> Number), updateOptions other (js "distance=30&unit=%") = Bad Throw.
Proof. exact malformed. Qed.
Print Assumptions C99_marked_refuted.
