(** The program performance/main.cpp, which measures the parser and lists what it does not recognise. Definitions only.

    What the program gets from outside is an argument: the command line, the content of the input file, the collection of
    test data [testdata::realDataSet] (test/testdata_real.cpp), the readings of the clock and the sizes of the data types.
    Its output is the text written to std::cout and the content of the files it writes. The input file is not one of the
    files which the program writes, and these can be opened for writing. *)
From Coq Require Import List String Ascii NArith Bool Arith.
From Verif Require Import Prim Values Groups1 Parser Format.
Import ListNotations.
Local Open Scope string_scope.

(** uint64_t *)
Definition u64 (n : N) : N := (n mod 18446744073709551616)%N.
Definition nl : ascii := "010"%char.
Definition endl : string := String nl "".

(* ------------------------------------------------------------------ *)
(** ** Names *)

(** main.cpp:44-114; variant_index (28-40) is the place in the list of alternatives, as in [Group_index] *)
Definition groupName (index : nat) : string :=
  match index with
  | 0 => "KeywordGroup" | 1 => "LocationGroup" | 2 => "ReportTimeGroup" | 3 => "TrendGroup" | 4 => "WindGroup"
  | 5 => "VisibilityGroup" | 6 => "CloudGroup" | 7 => "WeatherGroup" | 8 => "TemperatureGroup" | 9 => "PressureGroup"
  | 10 => "RunwayStateGroup" | 11 => "SeaSurfaceGroup" | 12 => "MinMaxTemperatureGroup" | 13 => "PrecipitationGroup"
  | 14 => "LayerForecastGroup" | 15 => "PressureTendencyGroup" | 16 => "CloudTypesGroup" | 17 => "LowMidHighCloudGroup"
  | 18 => "LightningGroup" | 19 => "VicinityGroup" | 20 => "MiscGroup" | 21 => "UnknownGroup"
  | _ => "UNDEFINED"
  end.
(** std::variant_size_v<metaf::Group> *)
Definition groupKinds : nat := 22.
(** main.cpp:116-124 *)
Definition reportPartName (rp : ReportPart) : string :=
  match rp with
  | RP_UNKNOWN => "unknown" | RP_HEADER => "header" | RP_METAR => "metar" | RP_TAF => "taf" | RP_RMK => "remark"
  end.
(** main.cpp:126-134 *)
Definition reportPartIndex (rp : ReportPart) : nat :=
  match rp with RP_UNKNOWN => 0 | RP_HEADER => 1 | RP_METAR => 2 | RP_TAF => 3 | RP_RMK => 4 end.
(** main.cpp:145-154; reportPartFromName (136-143) is not used *)
Definition reportPartFromIndex (index : nat) : option ReportPart :=
  match index with
  | 0 => Some RP_UNKNOWN | 1 => Some RP_HEADER | 2 => Some RP_METAR | 3 => Some RP_TAF | 4 => Some RP_RMK | _ => None
  end.
(** main.cpp:156-203 *)
Definition reportErrorName (e : ReportError) : string :=
  match e with
  | RE_NONE => "no error"
  | RE_EMPTY_REPORT => "empty report"
  | RE_EXPECTED_REPORT_TYPE_OR_LOCATION => "expected report_type_or_location"
  | RE_EXPECTED_LOCATION => "expected location"
  | RE_EXPECTED_REPORT_TIME => "expected report time"
  | RE_EXPECTED_TIME_SPAN => "expected time span"
  | RE_UNEXPECTED_REPORT_END => "unexpected report end"
  | RE_UNEXPECTED_GROUP_AFTER_NIL => "unexpected group after NIL"
  | RE_UNEXPECTED_GROUP_AFTER_CNL => "unexpected group after CNL"
  | RE_UNEXPECTED_NIL_OR_CNL_IN_REPORT_BODY => "unexpected NIL or CNL in report body"
  | RE_AMD_ALLOWED_IN_TAF_ONLY => "unexpected AMD in non TAF report"
  | RE_CNL_ALLOWED_IN_TAF_ONLY => "unexpected CNL in non TAF report"
  | RE_MAINTENANCE_INDICATOR_ALLOWED_IN_METAR_ONLY => "unexpected maintenance indicator in TAF report"
  | RE_REPORT_TOO_LARGE => "report too large"
  end.
(** main.cpp:205 *)
Definition reportPartSize : nat := 5.

(* ------------------------------------------------------------------ *)
(** ** PerformanceStats (209-254) *)

(** main.cpp:219-223: microsec and items. The map is a list of names with their data; the program never goes through it in
    the order of the names, since print of all entries (250-254) is not used. *)
Definition PerformanceStats : Type := list (string * (N * N)).
(** main.cpp:212-215; both operator[] of a missing name make an entry with zeros *)
Fixpoint PerformanceStats_add (name : string) (microsec items : N) (st : PerformanceStats) : PerformanceStats :=
  match st with
  | [] => [(name, (u64 microsec, u64 items))]
  | (k, (m, i)) :: r =>
    if String.eqb k name then (k, (u64 (m + microsec), u64 (i + items))) :: r
    else (k, (m, i)) :: PerformanceStats_add name microsec items r
  end.
Fixpoint stats_at (name : string) (st : PerformanceStats) : option (N * N) :=
  match st with
  | [] => None
  | (k, d) :: r => if String.eqb k name then Some d else stats_at name r
  end.
(** main.cpp:229-232 *)
Definition quantity (itemname : string) (q : N) : string :=
  if (q =? 0)%N then "<1 " ++ itemname else dec_N q ++ " " ++ itemname ++ (if (1 <? q)%N then "s" else "").
(** Division of unsigned numbers: by zero is undefined behaviour *)
Definition udiv (a b : N) : res N := if (b =? 0)%N then Bad UB else Ok (a / b)%N.
(** main.cpp:228-248 *)
Definition PerformanceStats_print (name : string) (st : PerformanceStats) : res string :=
  match stats_at name st with
  | None => Ok ("No performance stats exist for " ++ name ++ "." ++ endl)
  | Some (microsec, items) =>
    if (items =? 0)%N then Ok ("No processed " ++ name ++ "s." ++ endl) else
    let! itemsPerSecond := udiv (u64 (1000000 * items)) microsec in
    Ok (quantity "microsecond" microsec ++ ", " ++ quantity name items ++ ", " ++
        quantity name itemsPerSecond ++ " per second." ++ endl)
  end.

(* ------------------------------------------------------------------ *)
(** ** BatchProcess (258-353) *)

(** std::getline of the text not read yet: the text before the delimiter and what follows it *)
Fixpoint upto (d : ascii) (s : string) : string * string :=
  match s with
  | "" => ("", "")
  | String c r => if Ascii.eqb c d then ("", r) else let (a, b) := upto d r in (String c a, b)
  end.
(** It fails if nothing is left *)
Definition getline (d : ascii) (s : string) : option (string * string) :=
  match s with "" => None | _ => Some (upto d s) end.

(** main.cpp:267-282, 284-304 and 315-333. Of the file, the text not yet read and the whole content; the cache totalFileSize
    is left out, the count being the same each time. *)
Inductive BatchProcess :=
| BatchFromMemory (batch : list string)
| BatchFromTestdataReal (batch : list string) (repetitionsLeft repetitionsTotal : nat)
| BatchFromFile (loadedBatch : list string) (f : string) (batchSize : nat) (content : string).

(** main.cpp:272-275, 323 *)
Definition getCurrentBatch (b : BatchProcess) : list string :=
  match b with BatchFromMemory l => l | BatchFromTestdataReal l _ _ => l | BatchFromFile l _ _ _ => l end.
(** main.cpp:338-343: the lines loaded, what is left of the file, and the value returned *)
Fixpoint loadLines (batchSize : nat) (f : string) : list string * string * bool :=
  match batchSize with
  | 0 => ([], f, true)
  | S n =>
    match getline nl f with
    | None => ([], f, false)
    | Some (s, f') => let '(l, f'', more) := loadLines n f' in (s :: l, f'', more)
    end
  end.
(** main.cpp:276, 287-291, 335-344 *)
Definition nextBatch (b : BatchProcess) : BatchProcess * bool :=
  match b with
  | BatchFromMemory l => (b, false)
  | BatchFromTestdataReal l k total =>
    let k := match k with 0 => 0 | S n => n end in
    (BatchFromTestdataReal l k total, match k with 0 => false | _ => true end)
  | BatchFromFile _ f n content =>
    let '(l, f', more) := loadLines n f in (BatchFromFile l f' n content, more)
  end.
(** main.cpp:318-322 for a file which can be opened *)
Definition openBatch (content : string) (batchSize : nat) : BatchProcess :=
  fst (nextBatch (BatchFromFile [] content batchSize content)).
(** std::count of the line ends *)
Fixpoint count_nl (s : string) : nat :=
  match s with "" => 0 | String c r => if Ascii.eqb c nl then S (count_nl r) else count_nl r end.
(** main.cpp:277, 292, 346-353 *)
Definition totalSize (b : BatchProcess) : N :=
  match b with
  | BatchFromMemory l => N.of_nat (List.length l)
  | BatchFromTestdataReal l _ total => (N.of_nat (List.length l) * N.of_nat total)%N
  | BatchFromFile _ _ _ content => N.of_nat (count_nl content)
  end.
(** [do { ... } while (src->nextBatch())]. [body] gets the current batch. The number of batches is limited by [fuel]. *)
Fixpoint do_batches {A : Type} (fuel : nat) (body : list string -> A -> res A) (src : BatchProcess) (a : A) : res A :=
  match fuel with
  | 0 => Bad Fuel
  | S fuel' =>
    let! a' := body (getCurrentBatch src) a in
    let (src', more) := nextBatch src in
    if more then do_batches fuel' body src' a' else Ok a'
  end.
Definition batch_fuel (src : BatchProcess) : nat :=
  match src with
  | BatchFromMemory _ => 1
  | BatchFromTestdataReal _ k _ => S k
  | BatchFromFile _ f _ _ => S (S (slen f))
  end.
Definition for_batches {A : Type} (body : list string -> A -> res A) (src : BatchProcess) (a : A) : res A :=
  do_batches (batch_fuel src) body src a.

(* ------------------------------------------------------------------ *)
(** ** FrequencyStats (357-390) *)

(** std::map<string, uint64_t>, in the order of the keys; std::string is ordered by the characters as unsigned numbers *)
Definition FrequencyStats : Type := list (string * N).
(** main.cpp:360-362 *)
Fixpoint FrequencyStats_add (s : string) (m : FrequencyStats) : FrequencyStats :=
  match m with
  | [] => [(s, 1%N)]
  | (k, n) :: r =>
    match String.compare s k with
    | Eq => (k, u64 (n + 1)) :: r
    | Lt => (s, 1%N) :: m
    | Gt => (k, n) :: FrequencyStats_add s r
    end
  end.
(** main.cpp:374-380 *)
Definition FrequencyStats_addBatches (src : BatchProcess) (m : FrequencyStats) : res FrequencyStats :=
  for_batches (fun batch m => Ok (fold_left (fun m s => FrequencyStats_add s m) batch m)) src m.
(** main.cpp:364-368 *)
Definition compensateRepetitions (repetitions : N) (m : FrequencyStats) : FrequencyStats :=
  map (fun e => (fst e, snd e / repetitions)%N) m.
(** std::multimap::insert: behind the entries with the same number *)
Fixpoint multimap_insert (n : N) (s : string) (m : list (N * string)) : list (N * string) :=
  match m with
  | [] => [(n, s)]
  | (k, t) :: r => if (n <? k)%N then (n, s) :: m else (k, t) :: multimap_insert n s r
  end.
(** main.cpp:382-390 *)
Definition statsByNumber (m : FrequencyStats) : list (N * string) :=
  fold_left (fun mm e => multimap_insert (snd e) (fst e) mm) m [].
Definition printDescending (m : FrequencyStats) : string :=
  String.concat "" (map (fun e => dec_N (fst e) ++ ": " ++ snd e ++ endl) (rev (statsByNumber m))).

(* ------------------------------------------------------------------ *)
(** ** Archive and Archiver (394-537) *)

(** main.cpp:414-426, 428-453: the strings stored, or the content of the file and the count *)
Inductive Archive :=
| ArchiveToMemory (storage : list string)
| ArchiveToFile (file : string) (count : nat).
(** std::string::back; of an empty string undefined *)
Definition string_back (s : string) : res ascii :=
  match slen s with 0 => Bad UB | S n => sget s n end.
(** main.cpp:417, 436-442 *)
Definition Archive_add (a : Archive) (s : string) : res Archive :=
  match a with
  | ArchiveToMemory l => Ok (ArchiveToMemory (l ++ [s])%list)
  | ArchiveToFile file count =>
    let! c := string_back s in
    Ok (ArchiveToFile (file ++ s ++ (if Ascii.eqb c nl then "" else endl)) (S count))
  end.
(** main.cpp:418-421, 443-446 *)
Definition getBatchProcess (a : Archive) (desiredSize : nat) : BatchProcess :=
  match a with
  | ArchiveToMemory l => BatchFromMemory l
  | ArchiveToFile file _ => openBatch file desiredSize
  end.
(** main.cpp:422, 447 *)
Definition Archive_size (a : Archive) : nat :=
  match a with ArchiveToMemory l => List.length l | ArchiveToFile _ count => count end.
(** main.cpp:404-412 *)
Definition Archive_print (a : Archive) : res string :=
  for_batches (fun batch out => Ok (out ++ String.concat "" (map (fun record => record ++ endl) batch)))
    (getBatchProcess a 1000) "".

(** main.cpp:457-478 *)
Record Archiver := mkArchiver { archives : list Archive; errorReports : Archive }.
(** main.cpp:480-507; the names of the files are in [archive_filename] *)
Definition Archiver_new (files : bool) : Archiver :=
  let a := if files then ArchiveToFile "" 0 else ArchiveToMemory [] in
  mkArchiver (repeat a (groupKinds * reportPartSize)) a.
(** main.cpp:473-475 *)
Definition groupIndex (groupIndex reportPartIndex : nat) : nat := groupIndex * reportPartSize + reportPartIndex.
(** main.cpp:490-492, 506: the files behind the archives *)
Definition archive_filename (i : nat) (rp : ReportPart) : string :=
  groupName i ++ "-" ++ reportPartName rp ++ ".txt".
Definition error_filename : string := "reportError".
(** std::array::at *)
Definition array_at {A : Type} (l : list A) (i : nat) : res A :=
  match nth_error l i with Some a => Ok a | None => Bad Throw end.
Fixpoint array_set {A : Type} (l : list A) (i : nat) (a : A) : list A :=
  match l, i with
  | [], _ => []
  | _ :: r, 0 => a :: r
  | x :: r, S i' => x :: array_set r i' a
  end.
(** main.cpp:509-512 *)
Definition addGroup (ar : Archiver) (gi : GroupInfo) : res Archiver :=
  let idx := groupIndex (Group_index (gi_group gi)) (reportPartIndex (gi_reportPart gi)) in
  let! a := array_at (archives ar) idx in
  let! a' := Archive_add a (gi_rawString gi) in
  Ok (mkArchiver (array_set (archives ar) idx a') (errorReports ar)).
(** main.cpp:514-518 *)
Fixpoint addGroups (ar : Archiver) (groups : list GroupInfo) : res Archiver :=
  match groups with
  | [] => Ok ar
  | gi :: r => let! ar' := addGroup ar gi in addGroups ar' r
  end.
Definition addResult (ar : Archiver) (result : ParseResult) : res Archiver := addGroups ar (pr_groups result).
(** main.cpp:520-524 *)
Definition getBatchGroup (ar : Archiver) (index : nat) (rp : ReportPart) : res BatchProcess :=
  let! a := array_at (archives ar) (groupIndex index (reportPartIndex rp)) in
  Ok (getBatchProcess a 1000).
(** main.cpp:526-529 *)
Definition addErrorReport (ar : Archiver) (e : ReportError) (report : string) : res Archiver :=
  let! a := Archive_add (errorReports ar) (reportErrorName e) in
  let! a' := Archive_add a report in
  Ok (mkArchiver (archives ar) a').
(** main.cpp:531-537: the text, if there is an error *)
Definition printErrorReports (ar : Archiver) : res (option string) :=
  match Archive_size (errorReports ar) with
  | 0 => Ok None
  | s =>
    let! t := Archive_print (errorReports ar) in
    Ok (Some ("Reports with errors: " ++ dec_N (N.of_nat (Nat.div2 s)) ++ endl ++ t))
  end.

(* ------------------------------------------------------------------ *)
(** ** ParserPerformanceTester (541-631) *)

(** What the testers change: std::cout, the statistics, the archives, the counters (557-558) and the number of times measured.
    The n-th time measured is [clock n], in microseconds, as uint64_t. *)
Record Run := mkRun
  { cout : string; stats : PerformanceStats; archiver : Archiver; reportCount : N; groupCount : N; measured : nat }.

(** main.cpp:583-585 *)
Fixpoint parse_batch (sgn : bool) (batch : list string) : res (list ParseResult) :=
  match batch with
  | [] => Ok []
  | report :: r =>
    let! p := parse sgn report default_groupLimit in
    let! ps := parse_batch sgn r in
    Ok (p :: ps)
  end.
(** main.cpp:595-601 *)
Definition countGroups (result : list ParseResult) : N :=
  fold_left (fun count r => u64 (count + N.of_nat (List.length (pr_groups r)))) result 0%N.
(** main.cpp:607-612; result and batch have the same size *)
Fixpoint toArchives (result : list ParseResult) (batch : list string) (ar : Archiver) : res Archiver :=
  match result, batch with
  | p :: ps, report :: reports =>
    let! ar1 := match md_error (pr_metadata p) with RE_NONE => Ok ar | e => addErrorReport ar e report end in
    let! ar2 := addResult ar1 p in
    toArchives ps reports ar2
  | [], _ => Ok ar
  | _ :: _, [] => Bad Throw
  end.
(** main.cpp:577-591: one batch. [withArchiver] (606): an archiver is set; [verbose] (591): the tester is verbose; stats are
    always set. The size of the test set is that of the source. *)
Definition test_batch (sgn withArchiver verbose : bool) (clock : nat -> N) (testSetSize : N) (batch : list string) (r : Run)
  : res Run :=
  let! result := parse_batch sgn batch in
  let time := u64 (clock (measured r)) in
  let gc := countGroups result in
  let n := N.of_nat (List.length result) in
  let st := PerformanceStats_add "group" time gc (PerformanceStats_add "report" time n (stats r)) in
  let rc := u64 (reportCount r + n) in
  let gcs := u64 (groupCount r + gc) in
  let! ar := if withArchiver then toArchives result batch (archiver r) else Ok (archiver r) in
  let! text :=
    if verbose
    then (* 626-631 *)
      let! percent := udiv (u64 (rc * 100)) testSetSize in
      Ok ("Processed " ++ dec_N rc ++ " reports of " ++ dec_N testSetSize ++ " (" ++ dec_N percent ++ "%)" ++
          ", " ++ dec_N gcs ++ " groups parsed" ++ endl)
    else Ok "" in
  Ok (mkRun (cout r ++ text) st ar rc gcs (S (measured r))).
(** main.cpp:574-593 *)
Definition tester_test (sgn withArchiver verbose : bool) (clock : nat -> N) (src : BatchProcess) (r : Run) : res Run :=
  for_batches (test_batch sgn withArchiver verbose clock (totalSize src)) src
    (mkRun (cout r) (stats r) (archiver r) 0 0 (measured r)).

(* ------------------------------------------------------------------ *)
(** ** GroupPerformanceTester (635-738) *)

(** main.cpp:716-725 *)
Fixpoint splitLoop (fuel : nat) (s : string) : res (list string) :=
  match fuel with
  | 0 => Bad Fuel
  | S fuel' =>
    match getline " "%char s with
    | None => Ok []
    | Some (group, r) => let! l := splitLoop fuel' r in Ok (group :: l)
    end
  end.
Definition splitToGroups (s : string) : res (list string) := splitLoop (S (slen s)) s.
(** main.cpp:708-714 *)
Fixpoint prepareBatch (src : list string) : res (list (list string)) :=
  match src with
  | [] => Ok []
  | a :: r =>
    let! l := match slen a with 0 => Ok [] | _ => let! g := splitToGroups a in Ok [g] end in
    let! ls := prepareBatch r in
    Ok (l ++ ls)%list
  end.
(** main.cpp:727-738 *)
Definition makeDummyMetadata (rp : ReportPart) : ReportMetadata :=
  let md := fun type from until =>
    mkMetadata type RE_NONE (Some (mkTime (Some 1%N) 0 0)) "ZZZZ" false false false false false false false false false
      false false (Some 0%N) false from until in
  match rp with
  | RP_TAF => md RT_TAF (Some (mkTime (Some 1%N) 1 0)) (Some (mkTime (Some 1%N) 13 0))
  | _ => md RT_METAR None None
  end.
(** main.cpp:695-699 *)
Fixpoint append_groups (g : Group) (rest : list string) (rp : ReportPart) (md : ReportMetadata) : res Group :=
  match rest with
  | [] => Ok g
  | s :: r => let! ' (g', _) := Group_append g s rp md in append_groups g' r rp md
  end.
(** main.cpp:693-700 *)
Fixpoint parse_groups (batch : list (list string)) (rp : ReportPart) (md : ReportMetadata) : res unit :=
  match batch with
  | [] => Ok tt
  | groups :: r =>
    match groups with
    | [] => Bad Throw (* groups.at(0) *)
    | s :: rest =>
      let! g := GroupParser_parse s rp md in
      let! _ := append_groups g rest rp md in
      parse_groups r rp md
    end
  end.
(** main.cpp:691-704: one batch *)
Definition test_group_batch (clock : nat -> N) (index : nat) (rp : ReportPart) (l : list string) (r : Run) : res Run :=
  let! batch := prepareBatch l in
  let! _ := parse_groups batch rp (makeDummyMetadata rp) in
  Ok (mkRun (cout r)
        (PerformanceStats_add (groupName index) (u64 (clock (measured r))) (N.of_nat (List.length batch)) (stats r))
        (archiver r) (reportCount r) (groupCount r) (S (measured r))).
(** main.cpp:685-706; archiver and stats are set *)
Definition testGroupReportPart (clock : nat -> N) (index : nat) (rp : ReportPart) (r : Run) : res Run :=
  if Nat.eqb index 21 then Ok r else
  let! src := getBatchGroup (archiver r) index rp in
  for_batches (test_group_batch clock index rp) src r.
(** main.cpp:676-683; the tester is verbose (961) *)
Definition testGroupType (clock : nat -> N) (index : nat) (r : Run) : res Run :=
  let r := mkRun (cout r ++ "Testing " ++ groupName index ++ endl) (stats r) (archiver r) (reportCount r) (groupCount r)
             (measured r) in
  let! r := testGroupReportPart clock index RP_UNKNOWN r in
  let! r := testGroupReportPart clock index RP_HEADER r in
  let! r := testGroupReportPart clock index RP_METAR r in
  let! r := testGroupReportPart clock index RP_TAF r in
  testGroupReportPart clock index RP_RMK r.
(** main.cpp:653-674: the kinds tested; WeatherGroup (7) and UnknownGroup (21) are not *)
Definition tested_kinds : list nat := [0; 1; 2; 3; 4; 5; 6; 8; 9; 10; 11; 12; 13; 14; 15; 16; 17; 18; 19; 20].
Fixpoint test_kinds (clock : nat -> N) (kinds : list nat) (r : Run) : res Run :=
  match kinds with
  | [] => Ok r
  | k :: ks => let! r' := testGroupType clock k r in test_kinds clock ks r'
  end.
Definition group_tester_test (clock : nat -> N) (r : Run) : res Run := test_kinds clock tested_kinds r.

(* ------------------------------------------------------------------ *)
(** ** The program *)

(** main.cpp:742-765 *)
Fixpoint print_kinds (kinds : list nat) (st : PerformanceStats) : res string :=
  match kinds with
  | [] => Ok ""
  | k :: ks =>
    let! a := PerformanceStats_print (groupName k) st in
    let! b := print_kinds ks st in
    Ok (a ++ b)
  end.
Definition printGroupStats (st : PerformanceStats) : res string :=
  print_kinds [0; 1; 2; 3; 4; 5; 6; 7; 8; 9; 10; 11; 12; 13; 14; 15; 16; 17; 18; 19; 20; 21] st.
(** main.cpp:767-811; [sizeof] gives the size of the type of that name *)
Definition printSize (sizeof : string -> N) (name : string) : string := "Size of " ++ name ++ " " ++ dec_N (sizeof name) ++ endl.
Definition printDataSize (sizeof : string -> N) : string :=
  "Data type sizes:" ++ endl ++
  String.concat "" (map (printSize sizeof)
    ["Runway"; "MetafTime"; "Temperature"; "Speed"; "Distance"; "Direction"; "Pressure"; "Precipitation"; "SurfaceFriction";
     "WaveHeight"; "WeatherPhenomena"; "CloudType"]) ++ endl ++
  printSize sizeof "Group" ++ endl ++
  "Group sizes:" ++ endl ++
  String.concat "" (map (fun i => printSize sizeof (groupName i))
    [0; 1; 2; 3; 4; 5; 6; 7; 8; 9; 10; 11; 12; 13; 14; 15; 16; 17; 18; 19; 20; 21]) ++ endl.

(** main.cpp:815-826; printTestSetStats has no effect (969-974) *)
Record CommandLineParameters := mkParams
  { inputFile : string; help : bool; inputFromInternalTestData : bool; exportInternalTestData : bool;
    checkGroupPerformance : bool; printErrors : bool; printUnknownGroups : bool; printSizes : bool }.
(** main.cpp:830-838: is the option among the arguments *)
Definition option_given (name : string) (args : list string) : bool := existsb (String.eqb name) args.
(** main.cpp:828-845; [args] are argv[1] ... argv[argc - 1] *)
Definition setCommandLineParameters (args : list string) : res CommandLineParameters :=
  let! file :=
    match rev args with
    | [] => Ok None
    | a :: _ =>
      let! c0 := sget a 0 in
      if Ascii.eqb c0 "-" then Ok None else
      let! c1 := sget a 1 in
      if Ascii.eqb c1 "-" then Ok None else Ok (Some a)
    end in
  Ok (mkParams (match file with Some a => a | None => "" end) (option_given "--help" args)
        (match file with Some _ => false | None => true end) (option_given "--expint" args)
        (negb (option_given "--nogroups" args)) (negb (option_given "--noerror" args)) (negb (option_given "--nounkn" args))
        (negb (option_given "--nosize" args))).
(** main.cpp:847-855 *)
Definition setWasmParameters : CommandLineParameters := mkParams "" false true false false false false false.

(** testdata::MetarTafRealData (test/testdata_real.h): METAR and TAF of the collection; its other members are not used *)
Definition DataSet : Type := list (string * string).
Definition not_empty (s : string) : bool := match s with "" => false | _ => true end.
(** main.cpp:306-313 *)
Definition getReports (data : DataSet) : list string :=
  flat_map (fun d => filter not_empty [fst d; snd d]) data.
(** main.cpp:901-907: the content of testdatareal.txt *)
Definition exported (data : DataSet) : string :=
  String.concat "" (map (fun s => s ++ endl) (filter not_empty (map fst data))) ++
  String.concat "" (map (fun s => s ++ endl) (filter not_empty (map snd data))).

(** main.cpp:884-894 *)
Definition tab : string := String "009"%char "".
Definition help_text : string :=
  "Usage: performance [options] [input_file]" ++ endl ++ endl ++
  "Input file must contain one METAR or TAF per line" ++ endl ++
  "If input file is not specified the internal collection of test data is used" ++ endl ++ endl ++
  "Options:" ++ endl ++
  "--help " ++ tab ++ tab ++ "Display help and stop" ++ endl ++
  "--expint " ++ tab ++ "Export contents of internal collection of test data and stop" ++ endl ++
  "--nogroups" ++ tab ++ "Do not check group performance" ++ endl ++
  "--noerror " ++ tab ++ "Do not display reports which parser failed to parse" ++ endl ++
  "--nounkn " ++ tab ++ "Do not display groups which parser failed to recognise" ++ endl ++
  "--nostats " ++ tab ++ "Do not display group statistics" ++ endl ++
  "--nosize " ++ tab ++ "Do not display data size in memory" ++ endl.

(** main.cpp:869 *)
Definition inputBatchSize : nat := N.to_nat 64000.
(** main.cpp:878 *)
Definition testDataRealRepetitions : nat := 300.

Definition print (s : string) (r : Run) : Run :=
  mkRun (cout r ++ s) (stats r) (archiver r) (reportCount r) (groupCount r) (measured r).

(** main.cpp:912-934 *)
Definition main_parser (sgn wasm : bool) (clock : nat -> N) (data : DataSet) (file : string -> option string)
  (params : CommandLineParameters) (r : Run) : res Run :=
  let r := print ("Checking overall parser performance" ++ endl) r in
  let! ' (r, src) :=
    if inputFromInternalTestData params
    then Ok (print ("Using internal data set" ++ endl) r,
             BatchFromTestdataReal (getReports data) testDataRealRepetitions testDataRealRepetitions)
    else match file (inputFile params) with
         | None => Bad Throw (* 319 *)
         | Some content =>
           Ok (print ("Using data set from file " ++ inputFile params ++ endl) r, openBatch content inputBatchSize)
         end in
  let r := print ("Test set size is " ++ dec_N (totalSize src) ++ endl) r in
  let! r := tester_test sgn (negb wasm) (negb wasm) clock src r in
  let r := print endl r in
  let! a := PerformanceStats_print "report" (stats r) in
  let! b := PerformanceStats_print "group" (stats r) in
  Ok (print endl (print b (print a r))).
(** main.cpp:936-941 *)
Definition main_errors (r : Run) : res Run :=
  let! t := printErrorReports (archiver r) in
  Ok (print ("Reports not recognised by the parser:" ++ endl ++
             match t with
             | Some t => t
             | None => "no report errors, all reports parsed successfully" ++ endl
             end ++ endl) r).
(** main.cpp:943-956 *)
Definition unknown_stats (internal : bool) (ar : Archiver) : res FrequencyStats :=
  let! b0 := getBatchGroup ar 21 RP_UNKNOWN in
  let! m := FrequencyStats_addBatches b0 [] in
  let! b1 := getBatchGroup ar 21 RP_HEADER in
  let! m := FrequencyStats_addBatches b1 m in
  let! b2 := getBatchGroup ar 21 RP_METAR in
  let! m := FrequencyStats_addBatches b2 m in
  let! b3 := getBatchGroup ar 21 RP_TAF in
  let! m := FrequencyStats_addBatches b3 m in
  let! b4 := getBatchGroup ar 21 RP_RMK in
  let! m := FrequencyStats_addBatches b4 m in
  Ok (if internal then compensateRepetitions (N.of_nat testDataRealRepetitions) m else m).
Definition main_unknown (internal : bool) (r : Run) : res Run :=
  let! m := unknown_stats internal (archiver r) in
  Ok (print ("Groups not recognised by the parser (by occurrence number):" ++ endl ++ printDescending m ++ endl) r).
(** main.cpp:958-967 *)
Definition main_groups (clock : nat -> N) (r : Run) : res Run :=
  let! r := group_tester_test clock (print ("Checking group performance" ++ endl) r) in
  let! t := printGroupStats (stats r) in
  Ok (print (endl ++ t ++ endl) r).

(** The text written to std::cout, the archives with their files, and testdatareal.txt if written *)
Record Output := mkOutput { out_text : string; out_archiver : Archiver; out_export : option string }.
(** main.cpp:871-979; [wasm] (859-867): compiled by emscripten; [file] gives the content of a file which can be read *)
Definition performance_main (sgn wasm : bool) (clock : nat -> N) (sizeof : string -> N) (data : DataSet)
  (file : string -> option string) (args : list string) : res Output :=
  let! params := setCommandLineParameters args in
  let params := if wasm then setWasmParameters else params in
  let ar := Archiver_new (negb (inputFromInternalTestData params)) in
  if help params then Ok (mkOutput help_text ar None) else
  if exportInternalTestData params
  then Ok (mkOutput ("Exporting internal test data to testdatareal.txt" ++ endl ++
                     "Internal test data export complete" ++ endl ++ endl) ar (Some (exported data)))
  else
    let! r := main_parser sgn wasm clock data file params (mkRun "" [] ar 0 0 0) in
    let! r := if printErrors params then main_errors r else Ok r in
    let! r := if printUnknownGroups params then main_unknown (inputFromInternalTestData params) r else Ok r in
    let! r := if checkGroupPerformance params then main_groups clock r else Ok r in
    let r := if printSizes params then print (printDataSize sizeof) r else r in
    Ok (mkOutput (cout r) (archiver r) None).
