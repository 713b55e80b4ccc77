# Formal model of metaf (METAR/TAF parser) in Rocq/Coq 8.16.1

Source modelled: `/repo/include/metaf.hpp` (7278 lines, the whole library is this one header).
Everything lives in `rocq/theories` (logical name `Verif`).

## 1. Shape of the model

* **Strings** are Coq `string` (byte strings, any byte 0..255, any length). `size_t` arithmetic on string
  lengths is modelled with unbounded `nat` (no report longer than 2^64 bytes). `unsigned int` arithmetic that can
  wrap is modelled with explicit `mod 2^32` in `N`.
* **Undefined behaviour is an outcome.** `Prim.v` defines `res A := Ok a | Bad e` with `e` one of `UB` (out-of-bounds
  access, empty-optional dereference, float-to-int out of range...), `Throw` (exception, e.g. `substr` out of range),
  `Fuel` (a loop that did not finish). Every `s[i]`, `substr`, `*opt`, array/vector access of the C++ code is a
  partial operation in this monad, so "no UB" is a theorem, not an assumption.
* **Regular expressions** (`Regex.v`): the C++ regex literals appear verbatim in the model as strings; a parser for the
  ECMAScript subset used turns them into an AST, and a backtracking matcher (greedy, ordered alternatives, captures,
  first full match in priority order) models `std::regex_match` / `std::sregex_iterator`. The matcher is proved
  sound and complete with respect to a declarative language semantics.
* **Floating point**: `float`/`double` are `SpecFloat` binary32 / binary64 (Coq standard library, pure `Z` computation,
  no axioms), round to nearest even, FLT_EVAL_METHOD=0 and no contraction (x86-64/SSE2, wasm). `pow` is not modelled:
  functions that call it take it as a parameter.
* **Plain `char` signedness** is a boolean parameter of the tokenizer (x86: signed, ARM: unsigned).
* Each group class is a record; `parse` : string -> part -> metadata -> res (option G); `append` : G -> string -> part ->
  metadata -> res (G * AppendResult), returning the mutated group even when it is refused.
* `Parser.v` models `Parser::parse` with its loops, `Status` automaton, re-parse, metadata and groups.

Layering: `Model*` files contain definitions only, each citing the lines it models; `Spec.v`-style files contain small
independent specifications; `Props_*.v` files state the property theorems, each closed by `exact lemma` and followed by
`Print Assumptions` and a non-vacuity `Example`.

## 2. Properties and how they are proved

| id | modelled | proof idea |
|----|----------|-----------|
| C01 | whole parser in the `res` monad | every partial operation shown in range, group invariant carried along histories, fuel shown sufficient |
| C02-C04 | ReportInput | getNextGroup iterated = independent splitting function; the parser depends on text only through tokens |
| C05-C08 | appendToLastResultGroup, addGroupToResult, parse loop | loop invariant on (consumed tokens, result groups); C06 refuted by a concrete report, with the exact shape of exceptions proved |
| C09-C13 | Status automaton | automaton vs. an inductive grammar of syntax-group sequences; lifted to parse |
| C14-C15 | updateMetadata | loop invariant relating metadata and result groups; C15 refuted for METAR |
| C16-C18 | append functions of all groups | case analysis of every append automaton, quantified over all group values satisfying the reachable-group invariant |
| C19 | tokenizer with signedness parameter | tokens equal for 7-bit strings |
| C20-C26, C35-C38 | value classes | all strings, by shape analysis of the hand written parsers; language equality with the documented regex via the verified matcher |
| C27, C43, C44 | SpecFloat | each operation is shown to be Flocq's, hence the rounding of the real result; error and monotonicity are then bounded in the reals (`Pf_Round`, `Pf_Convert`) |
| C28-C30 | Direction | finite case analysis lifted to all degrees; non-termination for UNKNOWN exhibited |
| C31-C34 | WeatherPhenomena, WeatherGroup, CloudTypesGroup | bit-field lemmas over N, invariants |
| C39-C41 | Visibility, Trend, MinMax | invariants over the append automata |
| C42 | Visitor | case analysis |
| C45 | reparse | case analysis |
| C46 | LocationGroup | shape analysis through the verified matcher |
| C47 | whole parser | invariant of the result groups: each is the outcome of parsing and appending the words of its text (`SpecBuilt.v`) |
| C48 | Lightning, Vicinity | grammar of the words with their meaning (`SpecNearby.v`); state of the append automata as a function of the words, both directions |
| C49 | Values | relation between texts and values (`SpecTexts.v`), equivalence with each value parser |
| C50 | Wind | grammar of the words with their meaning (`SpecWind.v`), given the time of the report; every regular expression involved is shown to capture its text in one way only (`Pf_Layout.v`); for reports, that every group after the header was built with the report time of the final metadata (`Pf_Grown.v`) |
| C51 | Visibility | grammar of the words with their meaning (`SpecVisibility.v`); the state of the append automaton as a relation to the words; ambiguous expressions are handled by showing which capture is preferred (`Pf_Prefer.v`) |
| C52 | Clouds | grammar of the words with their meaning (`SpecClouds.v`); the state of the append automaton as a relation to the words; for run-together cloud types, the search finds exactly the pieces by induction on their number |
| C53 | Temperature, pressure, tendency, sea surface, runway state | grammar of the words with their meaning (`SpecReadings.v`); each expression is matched exactly by the pieces, each piece read by the value lemmas of C25 and C35-C38 |
| C54 | Precipitation amounts, icing and turbulence, other data | grammar of the words with their meaning (`SpecAmounts.v`), for precipitation also of the report time; pieces of each expression read by the value lemmas of C35-C38; whole numbers up to 2^24 proved exact in binary32 (`Pf_Whole.v`) |
| C55 | No word opens two kinds of group, except five words of the remarks | each recogniser's words are shown to lie in a regular language (`Pf_Openings.v`, `Pf_OpeningWords.v`); a verified decision procedure for disjointness of regular languages (pairs of derivatives closed under successors, `Pf_Disjoint.v`) settles the 210 pairs of each part by computation; order independence follows for every permutation |
| C56 | A report is read group by group | `SpecSentence.v` describes a report as header, body and remarks, each a sequence of items (words, group); induction over the items with the state of the parser between two groups as invariant (`Pf_Sentence.v`, `Pf_Header.v`, `Pf_Reading.v`); relies on C55 for the kind of the first word and on the fact that of the metadata only the report time is read (`Pf_TimeOnly.v`); that there is one way to divide a report follows from the parser being a function |
| C57 | isValid() tells exactly whether the values are in range | `SpecValid.v` states the conditions on integers (1/10000 of a mile, tenths of a degree); `Pf_Order.v` and `Pf_MileOrder.v` prove that the floating-point values are ordered as these integers; the rest uses what C40, C41, C50, C51 and C53 say about the values a report can bring in, and C17 for groups that wait for a word (`Pf_Valid.v`, `Pf_Validity.v`) |
| C58 | Weather groups say what their words say | `SpecWeatherGroup.v` gives the words and their meaning as a relation; soundness from C32 and C47, completeness by running the loop over the digits and letters of a word of events (`Pf_WeatherGroup.v`) |
| C59 | The reports read without error are exactly the well-formed ones | `SpecWhole.v` adds to the description of C56 the reports ending with NIL or CNL; one direction is C56 and the same for these; the other cuts the words of any accepted text into items (`Pf_Division.v`), by induction over the words with the last group as accumulator, and follows the header state by state (`Pf_HeaderWalk.v`, `Pf_EveryReport.v`); the limit by C07 |
| C60 | Every report is read as the longest texts of groups, as the words say | `SpecSaid.v` collects the texts of all kinds of groups from C40, C41, C48, C50-C54 and C58, `SpecLongest.v` divides words into longest beginnings of such texts without mention of any parsing function; proof: every group put together from words can be completed (`Pf_Completion.v`: one completion for each state of each automaton), so "is appended" is "begins a text" (`Pf_Longest.v`), and C59 carries over (`Pf_Pieces.v`) |
| C61 | The weather summary is returned for all texts | `Summary.v` models `examples/summary.cpp` 14-700; the only possible undefined behaviour is the conversion of a float to int, so every float that can occur is bounded: values of groups by invariants over all reachable groups (`Pf_Bounded.v`), converted values by C27/C43/C44 and `Pf_SumRange.v`; libm `pow` is asked to be moderate and moderately increasing (`pow_tame`) |
| C62 | The summary's values are those last reported | `SpecSummary.v` says which group gives which value, in rationals; each step of the loops adds one group (`Pf_SumValues.v`), with exactness of the truncated conversions by small tables (`Pf_SumTable.v`) and error bounds |
| C63 | Weather symbols tell the reported weather | `meaning` gives each symbol its meaning; every triple of qualifier, descriptor and weather is checked to get the true symbol that tells most; invariant for vicinity phenomena (`Pf_SumWeather.v`) |
| C64 | The sky is the greatest amount of clouds | induction over the groups from the end; refuted in general (`Pf_SumRefuted.v`) |
| C65 | An explanation is returned for every text | `Explain.v` models `examples/explain.cpp`, `Format.v` the number formatting of the standard library; every visiting function is shown to return for every group the parser can produce (`Pf_Explain.v`, over the invariants of C61 and `Pf_Ghost.v`); one kind of group makes it throw (refuted) |
| C66 | The table has one row per group, without foreign markup | `SpecExplain.v` writes the table from its rows; the replacement loop is shown to replace all ends of lines (`Pf_ExBreaks.v`); all texts are tables without markup, except the raw text (refuted) |
| C67 | No value is missing from an explanation | the same proof as C65 keeps that no piece has a bracket |
| C68 | Numbers with decimals are those of the API | `SpecShown.v` says in rationals what a text shows; `Pf_ExNumber.v` proves it of the six-decimal text and of what is cut from it; the nearest value is refuted |
| C69 | An explanation warns exactly if the group is not valid | case analysis over the texts (`Pf_ExValid.v`) |
| C70 | Numbers are shown as reported | decimal notation read back by `SpecDecimal.v`; floats of integers are exact up to 2^24 (`Pf_ExShown.v`); distances in all units (`SpecFigures.v`) and numbers of six digits read back as rational numbers (`SpecStream.v`); miles over 15 and density altitudes from a million feet refuted |
| C71 | Different codes are explained by different texts | case analysis over all pairs |
| C72 | No reported value is left out of an explanation | `SpecFacts.v` lists every value of every accessor, whatever the type; which values go with which types is known from the texts (C40, C50, C51, C53, C54, C58, ...); five kinds of values are left out and refuted; each value stands right after a label of `SpecFacts.v` which says what it is |
| C73 | Explanations name the group and its codes in the right words | `SpecKinds.v` has the words for each type of each class of groups and for each value of each enumeration; by cases over the types, for weather by induction over the kinds of weather; altocumulus castellanus and the cloud type not reported are refuted |
| C74 | The texts of the groups of a result give the same result when parsed | a text all of whose words could be groups of a report is cut into exactly these words; the consumed words lead through the same steps to the same state |
| C75 | Words added at the end change at most the last two groups | invariant of the loop: all groups but the last two are out of reach of appending, re-parsing and merging; after an error at a word the loop is over |
| C76 | The tutorial program lists every group of the report with its kind | `Tutorial.v` models tutorial.cpp with the report as an argument; by cases over the 22 kinds |
| C77 | A group that waits for more words is not valid | by cases over the kinds and the states of waiting |
| C78 | Only capital letters, digits and + - . / $ are read | languages of the regular expressions, then by cases over the parsers and over `Built` (C47) |
| C79 | The same words mean the same wherever they stand | every understood group of a result is `Assembled` (C60) from its words and then closed by `settle`; assembling is a function of part, time and words except for FG and the like, which the next word decides; invariant over the words read: the words of an unknown group are not the whole text of a group, and the last unknown group begins no text at all |
| C80 | A smaller group limit only cuts the result off | the steps before the limit are those of the larger limit (C07); the step which reaches it and all later ones leave all but the last two groups alone (C75) |
| C81 | A foreign word changes nothing else | the report is a sequence of groups (C59); a foreign word continues no group and is no range of visibilities, so that the group before it ends as it did (C60, C78); the unknown words beside it are merged; the metadata are those of the recognised groups (C14) |
| C82 | The text on the summary page shows the values of the summary | the text is a list of lines without markup joined by line breaks, so that the lines can be told apart; each line by cases on its value. Partial: wind without direction |
| C83 | The summary page has the right words for weather and clouds | the switch, the binding names and the enumeration composed, for each symbol; words looked for in the text |
| C84 | The widget on the summary page shows the values of the summary | parts of the widget by cases on the values. Partial: three missing values are shown as 0 or null |
| C85 | The icon is that of the most important weather | the chain of conditions is the list of rules; the first rule that holds is unique. Partial: fourteen symbols have no icon |
| C86 | The page has one entry for each station, with its own data | keys and values of the map after each of the three loops, by induction on the lists from their ends |
| C87 | All stations are displayed | the summary is returned for all texts (C61), widget and text always (C82, C84); induction on the stations. Partial: elements without text of a report, undefined names |
| C88 | A foreign word changes neither the summary nor the other rows of the explanation | C81 for the groups; the loops of the summary skip unknown groups; the rows of the table are made group by group (C66) |
| C89 | The performance program processes every report of its input | the loop over batches is a fold over a list of batches whose concatenation is the part of the input that is used; invariant over batches. Partial: the last lines of a long file are lost |
| C90 | Every group is archived once, by kind and part of the report | the same invariant; the place of an archive is an injective function of kind and part |
| C91 | The performance program ends without undefined behaviour | the parser is total (C01), so only archives and divisions can fail. Partial: blank lines, no line end, time 0 |
| C92 | Everything that is not recognised is listed | the sorted map counts; dividing by the repetitions; reversing the multimap. Partial: files with 1000 and more records |
| C93 | Every kind of group is tested | invariant over the kinds tested. Partial: weather is not tested |
| C94 | Options leave out their section and change nothing else | no section depends on the text printed before it. Partial: hyphen as second character, empty argument, --nostats |
| C95 | The figures are those of the measurements | sums modulo 2^64 which do not overflow |
| C96 | The exported collection is the collection | lines of the concatenation; permutation of the reports |
| C97 | A link to the explanation page restores it | the page is a state machine (box, fragment, table) with the events loaded, started, edited; decoding is inverse to encoding for each character, then induction on the text; the box is stable under the normalisation of line ends in every reachable state. Partial: the empty text; the program starting before the page is loaded |
| C98 | The table shown explains the text in the box | the last event computes the table from the box alone; UTF-8 of the text up to the first zero. Partial: texts with half a surrogate pair, or a zero |
| C99 | The options marked on the summary page are those in effect | links are queries of a known form, which is read back; induction on the clicks with the invariant that the distance is a number which is read back. `Number()` of what is not a row of digits is a parameter. Partial: a parameter which cannot be decoded |
| C100 | The summary page tells what has become of its requests | promises by what has become of them; the page as a state machine over arriving answers; invariant that no promise given to `Promise.all` is rejected. Partial: failing requests |
| C101 | The summary page tells when a report was released | the `Date` object of the browser after ECMA-262, with the time zone of the device as two functions; calendar arithmetic against a specification which adds up lengths of months and years; composed with C62, C82 and C23. Partial: changing time zones, ends of months, answers without date |
| C102 | The distance shown on the summary page is the great-circle distance | numbers of JavaScript as real numbers of the standard library; points of the unit sphere as vectors, the angle by their scalar product; bounds of π from Machin's formula. Partial: aerodromes without position |
| C103 | The summary page requests the weather around the position within the chosen distance | addresses as in the code; the reading of an address by a server as a relation, proved to be unique; the coordinates in hundredths of a degree. Partial: distances whose text has a plus sign |
| C104 | In a browser the performance program measures the collection and shows nothing else | the model of `main` with the constant of the browser; the whole text of the output; invariant over the batches without archives. Partial: an empty last argument, a clock which does not advance |

Properties found false of the code are kept in view and proved as `..._refuted` with a concrete witness, next to the
strongest true variant.

## 3. Trusted base

* Coq's kernel and `vm_compute`.
* `Print Assumptions` stands under each property theorem. It prints "Closed under the global context" for every
  theorem except those of C27, C43 and C44 that speak about the accuracy or the order of converted values
  (`Props_Convert.v`), of C61 and C62 that speak about shown values (`C61_summary_returns`, `C62_values_partial`),
  and of C65, C66 and C67 (`C65_explain_outcome_partial`, `C65_explain_returns_partial`, `C66_table_rows`,
  `C66_no_markup_partial`, `C67_no_unable`), which need that all values are in the range of int, and
  `C70_miles_fraction_partial`, which needs that miles are exact, and of C87 (`C87_displayed_partial`, `C87_first_partial`,
  `C87_name_refuted`), which rest on C61, `C88_explanation`, which rests on C66, `C98_returns_partial`, which rests on C65, 
  `C101_release_partial`, which rests on C62, and those of C102, which speak about real numbers.
  These use the real numbers and Flocq 4.1, and list four axioms, all of Coq's standard library:
  `ClassicalDedekindReals.sig_forall_dec`, `ClassicalDedekindReals.sig_not_dec`,
  `FunctionalExtensionality.functional_extensionality_dep` and `Classical_Prop.classic`.
* The 7 `Coq.ssr.ssrunder.Under_rel.*` entries that a whole-library listing (`coqchk -o`, `vcheck`) shows are parameters
  of a sealed module in the standard library's ssreflect; no theorem depends on them.
* The entries `Coq.Reals.Rdefinitions.RbaseSymbolsImpl.*` and `RinvImpl.*` of the same listing are the standard library's
  sealed definitions of the real operations, not axioms.
* No axioms, parameters, functors, module types or plugins of our own.
* The fidelity of the hand translation; libstdc++ behaviours assumed: a moved-from `std::string` is empty,
  `std::regex` implements ECMAScript matching in the "C" locale, IEEE-754 float/double.

## 4. Not modelled

Of the example programs (`/repo/examples`): of `explain_shell.html` style sheet, texts, the rendering of
the table and the restoring of forms by the browser (the script is modelled in `ExplainPage.v`, the functions of the browser it calls
after ECMA-262 and HTML, and `Module.ccall` as a call with the UTF-8 bytes up to the first zero); of `summary_shell.html` style sheet (the
options are modelled in `Options.v`, the addresses of requests in `Requests.v`, the handling of answers in `PageFlow.v`), the browser's position, the XML
parser, errors of rounding in the distances (modelled on real numbers in `Distance.v`), seconds in the offsets of time zones and times outside of the range of `Date`
(the time of the update is modelled in `Clock.v`); the
sign printed for a NaN; allocation failure, libm `pow` (parameter), locale effects on `std::regex`.

The program `performance/main.cpp` is modelled in `Performance.v`, with the readings of the clock, the sizes of the types, the
collection `testdata::realDataSet` and the contents of files as parameters. Not modelled: failures of writing a file, an input file
which is one of the files written, `printTestSetStats` (empty in the code), and functions that are not called.

The functions of `summary_shell.html` that make texts, widgets and icons, and the names under which `summary.cpp` (702-818) exports
its enumerations, are modelled in `Page.v`. JavaScript numbers that come from `int` are modelled as Z; the quotients by powers of
ten that are shown are printed as the shortest decimal, which is what JavaScript prints for a correctly rounded quotient of an
`int`; `switch` over embind enumerations compares the objects the names stand for.

## 5. Disagreements between the code and the properties

Each is proved with a concrete witness (`..._refuted`) next to the strongest variant that holds (`..._partial`).

* **C06** After a group is invalidated twice in a row (once before and once after it is looked at again), the old group
  stays in the result with an empty text before the UnknownGroup.
* **C15** A time span in the body of a METAR (`1200/1300`) is taken for the applicable time of the report.
* **C17** Four texts stand in the result although more words were to come: `PROB30`, `PROB40`, `WSHFT`, `SNINCR`; and so
  does a single forecast temperature that is labelled neither minimum nor maximum (`T05/0112Z`).
* **C18** `VIS 1/2V1` is not valid until it has refused the next word; isValid() then changes from false to true. The same
  happens with vicinity groups. No other observable value changes.
* **C21** The regular expressions in the code's comments are not exact: the empty text is a speed (not reported), and
  mile fractions that the comment allows are refused (`C21_speed_refuted`, `C21_miles_refuted`).
* **C24** 24:00 is a valid time but not a 3-hourly or 6-hourly report time.
* **C25** The remark temperature `1000` (minus zero) is not marked as freezing, unlike `M00` in the body.
* **C29** `sectorCardinalDirToVector` does not terminate if exactly one of the two directions is not one of the eight.
* **C39** After `SFC VIS 2` the word `1/2V2` makes the group invalid, but the object then has a maximum visibility with
  the type SURFACE. The parser discards it; a caller who keeps it sees the mismatch (`C39_invalidated_refuted`).
* **C44** `heatIndex` with a NaN humidity passes the range checks and converts NaN to an integer, which is undefined.
* **C57** Wind of 999 units without gusts is not valid, because an absent gust is compared as 999 (`C57_refuted`). The
  documentation says that cloud types are always valid (`CU0` is not, `C57_cloud_types_refuted`) and that a minimum and
  maximum temperature is valid if the minimum is greater or equal to the maximum (`C57_minmax_refuted`: it is valid if
  the minimum is lower, and not if they are equal). It also does not say that an invalid runway makes cloud and
  visibility groups invalid, nor that the lower visibility must not be above the higher one.
* **C62** From TAF the wind of a wind shear group (`WS020/18065KT`) is shown as the surface wind, and any visibility as
  the prevailing one (`C62_forecast_surface_wind_refuted`). In imperial units `A3002` is shown as 3001 hundredths of an
  inch, because 30.02 in float times 100 is below 3002 (`C62_inches_exact_refuted`; likewise 2952, 2960, 2977, 2985
  and 2993).
* **C63** Ice pellets are always shown as showers of ice pellets (`-PL`), a funnel cloud in the vicinity (`VCFC`) as
  precipitation in the vicinity; from TAF weather events in remarks (`RAB05`) are shown as current weather.
* **C64** A layer of FEW or SCT after OVC or BKN makes the sky mostly clear (the condition
  `prev != OVERCAST || prev != MOSTLY_CLOUDY` is always true); `BKN014 V OVC` is mostly clear and `FEW014 V SCT` clear.
* **C65** `R///////V1000` makes a group of the type VARIABLE_RVR without a runway. `explain` asks for the runway with
  `value()` and the exception `bad_optional_access` leaves it (`C65_explain_returns_refuted`).
* **C66** The text of the report is put into the table as it is: `<b>` in a report is markup in the table
  (`C66_no_markup_refuted`).
* **C68** `roundTo` does not round but cuts off: `SLP123`, which is 1012.3 hPa, is explained as 1012.2 hPa, because the
  float 1012.3 prints as 1012.299988 (`C68_nearest_refuted`).
* **C70** `99SM` is explained as 95 statute miles: whole miles over 15 are shown by fives (`C70_miles_shown_refuted`). A
  density altitude of 1000000 feet is shown as `1e+06 feet` (`C70_density_altitude_refuted`).
* **C71** The text for a cloud type that is not reported is "cumulonimbus" (`C71_cloud_type_refuted`).
* **C72** Left out of explanations are: extent and depth of the deposits on a runway reported as clear and dry
  (`R10/015093`, `C72_clear_and_dry_refuted`); deposits, extent and friction of a runway which is not operational
  (`R10/819992`, `C72_not_operational_refuted`); the trend of a runway visual range which names no runway (`R///////U`,
  `C72_trend_refuted`); the sector in which there is no visibility (`VISNO N-E`, `C72_sector_refuted`); the time at which a
  phenomenon with a text of its own began or ended (`UPB05`, `C72_event_time_refuted`).
* **C73** Altocumulus castellanus clouds in the vicinity (`ACC NW`) are told as altocumulus clouds (`C73_kind_refuted`); a cloud
  type which is not reported is told as cumulonimbus (`C73_cloud_type_refuted`).
* **C77** Groups of clouds (`CLD`, `CIG`) and of lightning (`OCNL`) are valid while they wait for more words. Results of the
  parser have no such groups, apart from those of C17.
* **C78** What follows `LTG` in a remark is not looked at beyond the pairs of letters that are known: `LTGa`, or `LTG` followed
  by any bytes, is a valid group about lightning.
* **C82** A wind whose direction is not reported (`///15KT`) has no line, so its speed is not shown (`C82_wind_speed_refuted`); if the
  report says nothing about the wind the text says "Wind is variable" (`C82_variable_refuted`).
* **C84** The widget shows a pressure of `0` inches (`C84_pressure_refuted`) and a visibility of `0` km (`C84_visibility_refuted`) if
  they are not reported, and an arrow turned by `nulldeg` if the direction is not (`C84_direction_refuted`).
* **C85** Ice pellets, snow grains, undetermined precipitation, drifting snow and showers of ice pellets have the icon for missing
  data if nothing else is reported (`C85_unknown_refuted`).
* **C87** One METAR or TAF element without text of a report hides all later stations, because the call of `getCurrentWeather` throws
  (`C87_hidden_refuted`); a station listed without name is displayed as "undefined" (`C87_name_refuted`).
* **C89** If an input file has 64000 lines or more, the lines after the last full batch are read but not processed
  (`C89_last_line_refuted`: 64001 lines).
* **C91** A blank line in the input file is `back()` of an empty string (`C91_blank_line_refuted`); a file without line end divides by
  zero in the percentage (`C91_no_line_end_refuted`), a measured time of 0 microseconds in the rate (`C91_clock_refuted`).
* **C92** Archives in files are read 1000 records at a time, and records after the last full batch are lost: of 1001 unknown groups
  1000 are counted (`C92_file_refuted`), of 501 reports with errors 500 are listed under "Reports with errors: 501"
  (`C92_errors_refuted`).
* **C93** WeatherGroup is never tested: the program prints "No performance stats exist for WeatherGroup." (`C93_weather_refuted`).
* **C94** A last argument whose second character is a hyphen (`a-b.txt`) is ignored (`C94_hyphen_refuted`); an empty one is read beyond
  its end (`C94_empty_refuted`); `--nostats`, listed in the help, has no effect (`C94_nostats_refuted`).
* **C97** The address of the empty text shows the sample report (`C97_empty_refuted`); if the program starts before the load event of
  the page, the report of the address is lost and the sample is in the box, under a table for no text (`C97_order_refuted`).
* **C98** For a text with half a surrogate pair the table is emptied and not filled again, and the address stays that of the text before
  (`C98_table_refuted`, `C98_no_text`); a text with a character zero is explained as far as this (`C98_table_partial`).
  The report that makes `explain` throw (C65) leaves the page without a table (`C98_returns_refuted`).
* **C99** A query with a malformed percent sequence in `unit` or `distance` stops the page before any option is shown
  (`C99_marked_refuted`).
* **C100** `fetchAndParseXML` catches all failures, so that `Promise.all` is never rejected: if a request fails, the page says
  "Retreiving weather data..." for ever (`C100_failure_refuted`) and never "Unable to retreive weather data"
  (`C100_message_refuted`).
* **C101** The page takes the date of the device, which is a local one, as the reference for the day of a report, which is in UTC.
  West of Greenwich, on the evening before the first day of a month in UTC, a report that is some minutes old is taken for one of the
  first day of the month which is ending: "744 hours 14 minutes ago" (`C101_month_refuted`). The time of a release is read as a local
  time of the device and then shifted, so that it is wrong by an hour near a change of the time zone (`C101_zone_change_refuted`). If
  the header "date" may not be read, the offset is taken from the beginning of 1970 (`C101_no_date_refuted`).
* **C102** An aerodrome whose element has no latitude or longitude is said to be "NaN km away" (`C102_unknown_refuted`): the page
  tests the distance for `null`, which it never is.
* **C103** The parameter `distance=1e21` (or any number from there on) is requested as `1e+21`, which a server reads with a space
  (`C103_plus_refuted`): the distance is not encoded. No other distance does any harm, because what is requested is the text of a number.
* **C104** The command line is read before it is replaced, so an empty last argument is read beyond its end in a browser too
  (`C94_empty_refuted` holds for both). If the clock does not advance during the test, the program divides by zero
  (`C104_no_time_refuted`); clocks of browsers are coarse, and the collection may be short.

Further observations that contradict no property: the default group limit is 200 (the documentation says 100);
`strToUint` wraps around for ten digits and more, reachable with `RMK DENSITY ALT 99999999999FT`; any word that starts
with `LTG` is taken for lightning; `FM2215 TL2230` without a change indicator has the type TIME_SPAN (the table in the
documentation says FROM); a weather event group keeps its first 20 events and drops the others silently;
in a variable visibility the second word of the upper end is a plain fraction, so `VIS 1V2 11/2` adds 5.5 miles where
elsewhere `11/2` is 1 1/2; `VIS NE 2000` is refused though `VIS NE 2000V3000` is accepted; in `R04/3000FT/` the last
slash is part of the unit, so that the trend is NONE, not NOT_REPORTED; `FG`, `FU`, `BLSN`, `BLDU` and `BLSA` in
remarks are words of both the cloud and the vicinity group (C55); a word of events is refused as a whole if an event
without phenomenon follows one with an improper time (`RAB99E05`).

## 6. Validation of the model

All checks of the repository's own unit tests that concern modelled code were translated to Coq by
`tools/gen_tests.py` and evaluated against the model: 17314 checks and 834 real reports, all agree. They are not
part of the build (they take long and prove nothing).
