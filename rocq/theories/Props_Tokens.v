(** C02, C03, C04, C19: how the text of a report is cut into groups. *)
From Verif Require Import Prim Regex Float Values Weather Groups1 Groups2 Groups3 Groups4 Parser.
From Verif Require Import SpecTokens SpecReads Pf_Tokens.
Local Open Scope string_scope.

(** C02: reading groups from the input until there is none left yields exactly the non-empty pieces
    of the text before the first '=' (and reading always comes to an end). *)
Theorem C02_groups_of_a_report :
  forall (sgn : bool) (report : string) (l : list string),
    Reads sgn report (mkInput false 0) l <-> l = report_groups sgn report.
Proof. exact reads_iff. Qed.
Print Assumptions C02_groups_of_a_report.

(** Nothing is lost, duplicated or reordered: the pieces make up the text without delimiters. *)
Theorem C02_nothing_lost :
  forall (sgn : bool) (report : string),
    joined (report_groups sgn report) = without_delimiters sgn (before_end_indicator report).
Proof. exact report_groups_joined. Qed.
Print Assumptions C02_nothing_lost.

(** Every piece is non-empty, has no delimiter and no '=' in it, and a '+' only at its ends. *)
Theorem C02_shape_of_groups :
  forall (sgn : bool) (report : string), Forall (group_text sgn) (report_groups sgn report).
Proof. exact report_groups_shape. Qed.
Print Assumptions C02_shape_of_groups.

(** The parser sees the report only through these pieces: it performs the loop body of
    Parser::parse on each of them in turn until there is an error. *)
Theorem C02_parser_handles_exactly_these_groups :
  forall (sgn : bool) (report : string) (groupLimit : nat),
    parse sgn report groupLimit = parse_groups groupLimit (report_groups sgn report).
Proof. exact parse_eq_parse_groups. Qed.
Print Assumptions C02_parser_handles_exactly_these_groups.

Example C02_nonvacuous :
  report_groups true "  METAR ZZZZ 12/M01 R04/0600V+FT BLU+WHT=NOT READ"
  = ["METAR"; "ZZZZ"; "12/M01"; "R04/0600V+"; "FT"; "BLU+"; "WHT"].
Proof. vm_compute. reflexivity. Qed.

(** C03 *)
Theorem C03_text_after_end_indicator_ignored :
  forall (sgn : bool) (r x : string) (groupLimit : nat),
    parse sgn (r ++ "=" ++ x) groupLimit = parse sgn r groupLimit.
Proof. exact parse_end_indicator. Qed.
Print Assumptions C03_text_after_end_indicator_ignored.

Example C03_nonvacuous :
  report_groups true ("METAR KJFK" ++ "=" ++ " TAF") = ["METAR"; "KJFK"].
Proof. reflexivity. Qed.

(** C04: two reports made of the same groups and any delimiters parse alike. *)
Theorem C04_delimiters_do_not_matter :
  forall (sgn : bool) (groupLimit : nat) (d0 d0' : string) (gs gs' : list (string * string)),
    blank sgn d0 -> blank sgn d0' ->
    Forall (group_text sgn) (map fst gs) -> map fst gs = map fst gs' ->
    Forall (blank sgn) (map snd gs) -> Forall (blank sgn) (map snd gs') ->
    separated gs -> separated gs' ->
    parse sgn (d0 ++ assemble gs) groupLimit = parse sgn (d0' ++ assemble gs') groupLimit.
Proof. exact parse_assemble. Qed.
Print Assumptions C04_delimiters_do_not_matter.

(** The groups read back are the groups put in. *)
Theorem C04_groups_are_read_back :
  forall (sgn : bool) (d0 : string) (gs : list (string * string)),
    blank sgn d0 -> Forall (group_text sgn) (map fst gs) -> Forall (blank sgn) (map snd gs) ->
    separated gs -> report_groups sgn (d0 ++ assemble gs) = map fst gs.
Proof. exact report_groups_assemble. Qed.
Print Assumptions C04_groups_are_read_back.

(** The result depends on the report only through the sequence of its groups. *)
Theorem C04_same_groups_same_result :
  forall (sgn sgn' : bool) (r r' : string) (groupLimit : nat),
    report_groups sgn r = report_groups sgn' r' ->
    parse sgn r groupLimit = parse sgn' r' groupLimit.
Proof. exact parse_same_groups. Qed.
Print Assumptions C04_same_groups_same_result.

Example C04_nonvacuous :
  let tab := String "009" "" in
  assemble [("METAR", " "); ("KJFK", tab ++ "  "); ("NIL", "")] = "METAR KJFK" ++ tab ++ "  NIL" /\
  blank true (tab ++ "  ") /\ group_text true "BLU+" /\
  separated [("METAR", " "); ("KJFK", tab ++ "  "); ("NIL", "")].
Proof.
  cbv zeta; repeat split; try reflexivity; try discriminate.
  exists "B"%char, "LU", "+"; repeat split; try reflexivity; try discriminate; auto.
Qed.

(** C19 *)
Theorem C19_ascii_reports_do_not_depend_on_char_signedness :
  forall (report : string) (groupLimit : nat),
    seven_bit report -> parse true report groupLimit = parse false report groupLimit.
Proof. exact parse_seven_bit. Qed.
Print Assumptions C19_ascii_reports_do_not_depend_on_char_signedness.

(** For other bytes the platforms do differ: byte 0xC3 is a delimiter only where char is signed. *)
Theorem C19_other_bytes_do_depend_on_it :
  exists report : string,
    parse true report default_groupLimit <> parse false report default_groupLimit.
Proof. exists ("METAR KJFK NIL" ++ String "195" "X"); vm_compute; discriminate. Qed.
Print Assumptions C19_other_bytes_do_depend_on_it.

Example C19_nonvacuous : seven_bit "METAR KJFK 041115Z NIL=".
Proof. cbn; repeat split; cbn; repeat constructor. Qed.
