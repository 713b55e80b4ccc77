{
"C01": ["proved", "For every byte string, limit and signedness of char; also for every group parser on any text and every append to any reachable group."],
"C02": ["proved", "For every byte string and both signednesses of char; the parser is shown to see the report only through these groups."],
"C03": ["proved", "For every report, suffix and limit."],
"C04": ["proved", "For every list of groups and delimiter strings."],
"C05": ["proved", "For every byte string and limit; consumed groups are a prefix of the groups of the report, all of them when there is no error."],
"C06": ["partial", "The property as documented is false of the code: C06_one_group_per_word_refuted gives a report whose result has a group without text and more groups than the report. Proved instead for every input: such a group is always followed by an unknown group with text, and there are at most twice as many groups as consumed words."],
"C07": ["proved", "For every byte string and limit. The exact count includes that the first group after the time of an untyped METAR is counted twice; the result has at most 2*max(1,limit) groups."],
"C08": ["proved", "For every byte string and limit."],
"C09": ["proved", "For every byte string and limit; the grammar is a separate inductive specification over the labels of the result groups, proved equal to the parser's automaton and unambiguous."],
"C10": ["proved", "For every byte string and limit, with a table of what each error code means; the rest of the report is ignored and the error depends on the labels only."],
"C100": ["partial", "Refuted for failing requests: the page goes on saying that it is waiting. Proved for all orders of arrival of answers."],
"C101": ["partial", "Proved for devices that show the right local time, with a constant time zone, right or wrong, when the day of the release has begun where the device is and the answer has a readable date that is less than half a minute off (C101_release_partial); the browser's calendar is the Gregorian one (C101_calendar). Refuted: at the end of a month west of Greenwich, near a change of the time zone, and for answers without a readable date."],
"C102": ["partial", "Proved with real numbers in place of JavaScript's: errors of rounding are left out. Refuted for aerodromes without position, which are shown as NaN km away."],
"C103": ["partial", "Proved for every query, position and distance whose text has no plus sign; refuted for distances from 1e21 on."],
"C104": ["partial", "Proved for every command line whose last argument is not empty, every collection and every clock which advances; refuted for a clock which does not advance (and, in C94, for an empty last argument)."],
"C11": ["proved", "type as a function of the first three words; every limit covered"],
"C12": ["proved", ""],
"C13": ["proved", ""],
"C14": ["proved", ""],
"C15": ["partial", "refuted for METAR (a body group HHMM/HHMM sets the time span); the TAF half and the exact rule are proved"],
"C16": ["proved", "For every group value, reachable or not; and for the texts of all groups of a result."],
"C17": ["partial", "Every group of a result is complete except four fixed texts (PROB30, PROB40, WSHFT, SNINCR) and a single forecast temperature without label; these are refuted. Groups without text are the subject of C06."],
"C18": ["partial", "All values are kept, for every reachable group. isValid() of visibility and vicinity groups can change from false to true (refuted); for all other groups it is kept."],
"C19": ["proved", "Equality for 7-bit reports; a witness shows the platforms differ on bytes above 127."],
"C20": ["proved", "Complete characterisation for every string, position and digit count; a witness shows the wrap-around at ten digits."],
"C21": ["partial", "Proved for each parser: it accepts exactly the documented expression, or exactly that plus/minus the texts the theorem names. The plain equivalence is refuted for speed (empty text), miles (fractions with zeroes), rainfall, deposits, friction and waves (not-reported texts and reserved codes) and cloud types (taken from a list)."],
"C22": ["proved", ""],
"C23": ["proved", ""],
"C24": ["partial", "The windows are proved for hours 0 to 23; the window is half-open, a report exactly one hour after is outside. Refuted for 24:00, midnight at the end of the day, which is valid but not 6-hourly."],
"C25": ["partial", "Proved, except that minus zero in the remarks (1000) does not set isFreezing (refuted)."],
"C26": ["proved", ""],
"C27": ["proved", "Flocq's rounding results carry the model's SpecFloat operations to real numbers; the value returned is the documented presentation of the distance for every stored number."],
"C28": ["proved", ""],
"C29": ["partial", "Proved for all octants. Refuted when one end is UNKNOWN and the other an octant: the loop never ends, whatever the number of iterations."],
"C30": ["proved", "All reachable lightning and vicinity groups; the two areas are enumerated, the histories are covered by an invariant."],
"C31": ["proved", ""],
"C32": ["proved", ""],
"C33": ["proved", "For every phenomenon the interface gives out, and for isValid() of every reachable group. A witness shows that an unobtainable phenomenon does read out of bounds."],
"C34": ["proved", "Sizes bounded for every reachable group; writes beyond capacity are an outcome of the model that C01 excludes. LightningGroup flags are booleans."],
"C35": ["proved", ""],
"C36": ["proved", ""],
"C37": ["proved", ""],
"C38": ["proved", ""],
"C39": ["proved", "invariant over everything built from words, and for the groups of every report; C39_invalidated_refuted: an object which append declared invalid (SFC VIS 2 1/2V2) breaks it, the parser discards such objects"],
"C40": ["proved", "Exactly the listed word sequences combine, for every group however it was assembled and for every trend group of a report."],
"C41": ["proved", "Exactly the listed word sequences combine, for every group however it was assembled and for every such group of a report."],
"C42": ["proved", "For every visitor, group, part and raw string."],
"C43": ["proved", "Reportedness, same unit, accuracy against the exact definition of each unit, and monotonicity, for all quantities that have toUnit."],
"C44": ["partial", "The validity ranges are exact and nothing undefined happens for any finite humidity; a humidity that is not a number is refuted (conversion of NaN to int). pow is a parameter of which only moderate finite results are assumed."],
"C45": ["proved", "For every text, part, metadata and previous group; and for the parser's handling of an invalidated last group, where the re-parsed group may be invalidated again."],
"C46": ["proved", ""],
"C47": ["proved", ""],
"C48": ["proved", "Word sequences of lightning and vicinity groups in both directions, and for the groups of every report."],
"C49": ["proved", "equivalence of each value parser with the relation between texts and values in SpecTexts.v"],
"C50": ["proved", "word grammar of wind groups with their meaning in SpecWind.v, both directions, and for the groups of every report with the report time of its metadata"],
"C51": ["proved", "word grammar of visibility groups with their meaning in SpecVisibility.v, both directions, and for the groups of every report"],
"C52": ["proved", "word grammars of cloud, cloud type and low/middle/high cloud groups with their meaning in SpecClouds.v, both directions, and for the groups of every report"],
"C53": ["proved", "word grammars of temperature, pressure, pressure tendency, sea surface and runway state groups with their meaning in SpecReadings.v, both directions, and for the groups of every report; binary floating-point values are stated up to rounding"],
"C54": ["proved", "Both directions for each kind of group, and for every group of every report; precipitation types with the time of the report. Density altitudes above 2^24 feet are only said to be present."],
"C55": ["proved", "All 210 pairs of kinds in each part; the five exceptions are characterised exactly"],
"C56": ["proved", "METAR, SPECI and TAF, with and without type word and remarks; reports with NIL or CNL have no body and are not part of the statement"],
"C57": ["proved", "All kinds of groups; the exception (wind of 999 units without gusts) is part of the statement. Three statements of the documentation are refuted beside it."],
"C58": ["proved", "Both directions, and for the weather groups of every report with the report time of its metadata"],
"C59": ["proved", "Both directions, for all texts and limits, and uniqueness of the reading. Which words make up a group is given by the assembly relation of C56, whose meaning for each kind is the subject of C46-C58."],
"C60": ["proved", "Both directions and uniqueness; kinds, texts and parts of the report are unique, the values up to the rounding which the relations of C53 and C54 leave open"],
"C61": ["proved", "for all texts, dates and both systems of units"],
"C62": ["partial", "proved for METAR; for TAF any wind and any visibility counts, not only surface wind and prevailing visibility (refuted by wind shear groups); inches of mercury with an error of 0.0025 %, exactness refuted"],
"C63": ["partial", "all phenomena except ice pellets without showers and funnel clouds in the vicinity, which are shown wrongly (refuted); from TAF also weather events count"],
"C64": ["partial", "never cloudier than reported, unspecified exactly if nothing is reported; the greatest amount if layers are in order and not variable; refuted otherwise"],
"C65": ["partial", "no undefined behaviour, no endless loop, one way to throw, characterised exactly; a report with R///////V throws (refuted)"],
"C66": ["partial", "rows proved for all texts; no markup if the report has no '<'; markup in the report gets into the table (refuted)"],
"C67": ["proved", "for all texts without a bracket of their own"],
"C68": ["partial", "cut off instead of rounded, within one unit of the last digit, for all floats and 1 to 6 decimals; rounding to the nearest refuted"],
"C69": ["proved", "all groups"],
"C70": ["partial", "times, runways, speeds, directions, distances in all units, numbers of six digits; of miles those up to 15 and multiples of 5 above (refuted for others); density altitudes from a million feet are shown with an exponent (refuted)"],
"C71": ["partial", "all tables but one; the text for a cloud type which is not reported is that of cumulonimbus (refuted)"],
"C72": ["partial", "all values of all groups with text, except the five kinds of values which are left out (refuted)"],
"C73": ["partial", "Proved for all types of groups but one and all values of enumerations but one: altocumulus castellanus is told as altocumulus (C73_kind_refuted), a cloud type not reported as cumulonimbus (C73_cloud_type_refuted)."],
"C74": ["proved", "For every text and every limit."],
"C75": ["proved", "At most the last two groups with text; groups without text (see C06) are not counted."],
"C76": ["proved", "The report of the program is an argument of the model."],
"C77": ["partial", "Proved for all kinds of groups except clouds and lightning, which are valid while they wait (refuted)."],
"C78": ["partial", "Proved for all words except those which begin with LTG, after which anything may follow (refuted)."],
"C79": ["proved", ""],
"C80": ["proved", ""],
"C81": ["proved", ""],
"C82": ["partial", "All lines but the wind, and the wind if it has a direction or is variable. Refuted: a wind without direction has no line; no wind at all is called variable."],
"C83": ["proved", ""],
"C84": ["partial", "All parts of the widget. Refuted: missing pressure (inches) and visibility (km) are shown as 0, a missing direction as an arrow turned by null degrees."],
"C85": ["partial", "Rules, independence of order, and when the icon for missing data is shown. Refuted: fourteen weather symbols have that icon too."],
"C86": ["proved", ""],
"C87": ["partial", "All stations if each element has the text of its report, and those before the first one without. Refuted: the later ones are not displayed; a missing name is displayed as undefined."],
"C88": ["proved", ""],
"C89": ["partial", "Refuted as stated: the lines of a file after the last full batch of 64000 are not processed. Proved: the progress line for the reports used; the collection is used completely, a file if it has fewer than 64000 lines or a multiple of that."],
"C90": ["proved", "For all reports which the program uses."],
"C91": ["partial", "Refuted for blank lines, a file without line end and a measured time of 0. Proved: it ends normally in all other cases (measured times at least 1 and without overflow)."],
"C92": ["partial", "Refuted for files with 1001 unrecognised groups or 501 reports with errors. Proved for the collection, and for files with fewer than 1000 records (or multiples of 1000)."],
"C93": ["partial", "Refuted: WeatherGroup is never tested. Proved for all other kinds; for files, of the archived groups those of full batches of 1000 are tested, or all if fewer."],
"C94": ["partial", "Refuted for a hyphen as second character of the last argument, an empty last argument, and --nostats. Proved for all other command lines."],
"C95": ["proved", "As long as the sums are below 2^64."],
"C96": ["proved", "For collections without line ends in the reports."],
"C97": ["partial", "Refuted for the empty text and for a program started before the page is loaded. Proved for all other texts and all histories."],
"C98": ["partial", "Refuted for a text with half a surrogate pair, and for a report that makes explain throw; a text with a zero is explained as far as the zero. Proved for all other texts and all histories."],
"C99": ["partial", "Refuted for a query with a malformed percent sequence. Proved for all other queries and all sequences of clicks."]
}
