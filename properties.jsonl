{"id": "C01", "title": "Parsing any text terminates without undefined behaviour or exception", "statement": "Parser::parse called with any byte string as report and any group limit returns a ParseResult: it never reads outside a string, array or vector, never dereferences an empty optional, never throws (std::out_of_range from substr, std::bad_variant_access, ...), and never loops forever.", "quantifier": "all byte strings (any length, any bytes including NUL and bytes above 127), all group limits, both signednesses of plain char", "why_tests_cant": "Reports come from the network; the set of byte strings is infinite and the guards protecting each s[i], substr and *optional are spread over about a hundred hand-written branches.", "anchors": [{"file": "include/metaf.hpp", "symbol": "Parser::parse"}, {"file": "include/metaf.hpp", "symbol": "Parser::appendToLastResultGroup"}, {"file": "include/metaf.hpp", "symbol": "GroupParser::parse"}]}
{"id": "C02", "title": "Report text is split into groups exactly as documented", "statement": "The text considered is what precedes the first '='. It is cut at every character that is a control character or space, and additionally right after every '+' that is not the first character of its group. The groups handed to the group parsers are exactly the non-empty pieces, in order, with nothing lost, duplicated or reordered.", "quantifier": "all byte strings, both signednesses of plain char", "why_tests_cant": "The splitting depends on the interleaving of delimiters, '+' and '=' at any position of an arbitrarily long text.", "anchors": [{"file": "include/metaf.hpp", "symbol": "Parser::ReportInput::getNextGroup"}]}
{"id": "C03", "title": "Everything after the report end indicator is ignored", "statement": "Parsing r followed by '=' followed by any text x gives the same ParseResult (metadata and groups) as parsing r alone.", "quantifier": "all byte strings r and x, all group limits", "why_tests_cant": "x is arbitrary; tests try a handful of suffixes.", "anchors": [{"file": "include/metaf.hpp", "symbol": "Parser::ReportInput::getNextGroup"}, {"file": "include/metaf.hpp", "symbol": "Parser::parse"}]}
{"id": "C04", "title": "Delimiters between groups do not matter", "statement": "Replacing the delimiters between groups (and before the first / after the last group) by any other non-empty sequence of spaces, tabs, CR, LF or control characters does not change the ParseResult; the result depends on the report only through the sequence of its groups.", "quantifier": "all sequences of groups, all delimiter strings, all group limits", "why_tests_cant": "Unbounded number of delimiter combinations.", "anchors": [{"file": "include/metaf.hpp", "symbol": "Parser::ReportInput::getNextGroup"}, {"file": "include/metaf.hpp", "symbol": "Parser::parse"}]}
{"id": "C05", "title": "No report text is lost, duplicated or reordered in the result", "statement": "Splitting the rawString of every group of the result at spaces and concatenating gives exactly the groups of the report that were consumed, in order; if the result has no error, these are all groups of the report. Each rawString is made of its words with single spaces between them and nothing else.", "quantifier": "all byte strings, all group limits", "why_tests_cant": "Appending, invalidating, re-parsing and merging of groups can interleave in unboundedly many ways along the report.", "anchors": [{"file": "include/metaf.hpp", "symbol": "Parser::parse"}, {"file": "include/metaf.hpp", "symbol": "Parser::appendToLastResultGroup"}, {"file": "include/metaf.hpp", "symbol": "Parser::addGroupToResult"}]}
{"id": "C06", "title": "One group of the report never results in more than one parsed group", "statement": "As documented (api_parser.rst, Groups): one group in the report cannot result in multiple groups in the result; hence every group of the result has a non-empty rawString and there are at most as many groups in the result as groups in the report.", "quantifier": "all byte strings, all group limits", "why_tests_cant": "Violations need a particular history: a group recognised by one class, invalidated by the following group, re-parsed by another class and invalidated again.", "anchors": [{"file": "include/metaf.hpp", "symbol": "Parser::appendToLastResultGroup"}, {"file": "include/metaf.hpp", "symbol": "GroupParser::reparse"}, {"file": "include/metaf.hpp", "symbol": "VicinityGroup::append"}, {"file": "include/metaf.hpp", "symbol": "CloudGroup::append"}]}
{"id": "C07", "title": "groupLimit bounds the work and is reported exactly", "statement": "Parser::parse consumes at most max(1, groupLimit) groups of the report; the error is REPORT_TOO_LARGE if and only if the group limit was reached while consuming; when the limit is not reached the result does not depend on the limit; the number of groups in the result is bounded by a linear function of the limit.", "quantifier": "all byte strings, all group limits", "why_tests_cant": "Requires an invariant over arbitrarily long reports, including the group that is parsed twice.", "anchors": [{"file": "include/metaf.hpp", "symbol": "Parser::parse"}]}
{"id": "C08", "title": "Consecutive unrecognised groups are merged into one UnknownGroup", "statement": "In the result of Parser::parse no two adjacent groups are UnknownGroup.", "quantifier": "all byte strings, all group limits", "why_tests_cant": "Merging must survive invalidation and re-parsing of groups at any position.", "anchors": [{"file": "include/metaf.hpp", "symbol": "Parser::addGroupToResult"}, {"file": "include/metaf.hpp", "symbol": "Parser::appendToLastResultGroup"}]}
{"id": "C09", "title": "A report is accepted exactly when it follows the documented METAR/TAF syntax", "statement": "ParseResult.reportMetadata.error is NONE if and only if the sequence of syntax-relevant groups (METAR/SPECI/TAF, COR, AMD, location, report time, time span, NIL, CNL, RMK, $, other) belongs to the documented report grammar (api_parser.rst syntax diagrams) and the group limit was not reached.", "quantifier": "all sequences of syntax groups of any length / all byte strings", "why_tests_cant": "The language is infinite; unit tests try selected sentences of it.", "anchors": [{"file": "include/metaf.hpp", "symbol": "Parser::Status::transition"}, {"file": "include/metaf.hpp", "symbol": "Parser::Status::finalTransition"}, {"file": "include/metaf.hpp", "symbol": "getSyntaxGroup"}]}
{"id": "C10", "title": "The reported error names the first violation", "statement": "When the error is not NONE, the error code is determined by the first offending group: the groups before it form a viable prefix of the report grammar, the offending group is the last one in the result, and nothing after it influences the result.", "quantifier": "all byte strings, all group limits", "why_tests_cant": "Needs to hold for every prefix of every report.", "anchors": [{"file": "include/metaf.hpp", "symbol": "Parser::Status::transition"}, {"file": "include/metaf.hpp", "symbol": "Parser::parse"}]}
{"id": "C11", "title": "Report type is detected by the documented rules", "statement": "Type is METAR if the report starts with METAR or SPECI, TAF if it starts with TAF; if it starts with a location followed by a report time, it is TAF if a time span follows, UNKNOWN if NIL follows or the report ends, and METAR otherwise. With error NONE the type is UNKNOWN only for '<location> NIL' and '<location> <time> NIL'.", "quantifier": "all byte strings, all group limits large enough", "why_tests_cant": "All continuations of the header must be covered, including the group that is parsed twice.", "anchors": [{"file": "include/metaf.hpp", "symbol": "Parser::Status::transitionFromTimeSpan"}, {"file": "include/metaf.hpp", "symbol": "Parser::Status::transitionFromReportTypeOrLocation"}]}
{"id": "C12", "title": "Report parts appear in order", "statement": "The reportPart labels of the result groups are HEADER..., then METAR... or TAF... (never both), then RMK...; a METAR part only occurs if the type is METAR, a TAF part only if the type is TAF, and the RMK part begins right after the RMK keyword.", "quantifier": "all byte strings, all group limits", "why_tests_cant": "A property of unboundedly long group sequences including re-parsed and merged groups.", "anchors": [{"file": "include/metaf.hpp", "symbol": "Parser::Status::getReportPart"}, {"file": "include/metaf.hpp", "symbol": "Parser::parse"}]}
{"id": "C13", "title": "NIL and CNL reports carry no content", "statement": "If error is NONE and isNil (isCancelled) is set then the NIL (CNL) keyword is the last group of the report, the report has no body or remarks, and isCancelled implies type TAF with a validity time span.", "quantifier": "all byte strings, all group limits", "why_tests_cant": "Quantifies over all continuations.", "anchors": [{"file": "include/metaf.hpp", "symbol": "Parser::Status::transition"}, {"file": "include/metaf.hpp", "symbol": "Parser::updateMetadata"}]}
{"id": "C14", "title": "Metadata attributes reflect the keywords of the report", "statement": "Each boolean attribute (isSpeci, isNospeci, isAutomated, isAo1, isAo1a, isAo2, isAo2a, isNil, isCancelled, isAmended, maintenanceIndicator) is true if and only if the result contains the corresponding keyword group; isCorrectional is true iff it contains COR or CCA..CCZ; icaoLocation, reportTime and correctionNumber come from groups of the result.", "quantifier": "all byte strings, all group limits", "why_tests_cant": "Groups can be re-parsed, merged or dropped after the metadata was updated; only an invariant shows both stay in step.", "anchors": [{"file": "include/metaf.hpp", "symbol": "Parser::updateMetadata"}, {"file": "include/metaf.hpp", "symbol": "ReportMetadata"}]}
{"id": "C15", "title": "Validity time span metadata is present for TAF only", "statement": "As documented (api_reportmetadata.rst): timeSpanFrom/timeSpanUntil are empty for METAR/SPECI reports; for an error-free TAF that is not NIL they are present and equal the time span of the TAF header.", "quantifier": "all byte strings, all group limits", "why_tests_cant": "A later group of an arbitrary report can overwrite or set them.", "anchors": [{"file": "include/metaf.hpp", "symbol": "Parser::updateMetadata"}, {"file": "include/metaf.hpp", "symbol": "ReportMetadata"}]}
{"id": "C16", "title": "Structural keywords are never swallowed by multi-word groups", "statement": "RMK, NIL, CNL, $ and the other keywords are never appended to a preceding group, however that group was built, so they always take effect in the report syntax.", "quantifier": "all groups obtainable by parsing and appending any strings", "why_tests_cant": "The appending state machines have tens of states, reached by unbounded histories.", "anchors": [{"file": "include/metaf.hpp", "symbol": "VisibilityGroup::append"}, {"file": "include/metaf.hpp", "symbol": "CloudGroup::append"}, {"file": "include/metaf.hpp", "symbol": "WeatherGroup::append"}, {"file": "include/metaf.hpp", "symbol": "VicinityGroup::append"}, {"file": "include/metaf.hpp", "symbol": "LightningGroup::append"}]}
{"id": "C17", "title": "Incomplete multi-word groups never survive in the result", "statement": "After Parser::parse no group of the result is still waiting for its continuation (e.g. 'PK', 'PK WND', 'VIS', 'CIG', 'PRES', 'DENSITY'); incomplete text is turned into UnknownGroup.", "quantifier": "all byte strings, all group limits", "why_tests_cant": "Depends on what follows (or does not follow) at every position.", "anchors": [{"file": "include/metaf.hpp", "symbol": "Parser::parse"}, {"file": "include/metaf.hpp", "symbol": "Parser::appendToLastResultGroup"}]}
{"id": "C18", "title": "A group that refuses an appended string is left unchanged", "statement": "If append() of any group returns NOT_APPENDED then no observable value of the group has changed.", "quantifier": "all groups obtainable by parsing and appending, all strings, all report parts, all metadata", "why_tests_cant": "Several append functions assign fields before deciding to refuse.", "anchors": [{"file": "include/metaf.hpp", "symbol": "AppendResult"}, {"file": "include/metaf.hpp", "symbol": "MinMaxTemperatureGroup::appendForecast"}, {"file": "include/metaf.hpp", "symbol": "VicinityGroup::append"}]}
{"id": "C19", "title": "The result does not depend on the platform's char signedness for ASCII reports", "statement": "For reports consisting of 7-bit ASCII bytes parsing gives the same result whether plain char is signed or unsigned; for other bytes results may differ.", "quantifier": "all 7-bit byte strings, all group limits", "why_tests_cant": "Needs two platforms and all strings.", "anchors": [{"file": "include/metaf.hpp", "symbol": "Parser::ReportInput::getNextGroup"}]}
{"id": "C20", "title": "Decimal digit strings are converted to their value", "statement": "strToUint returns the decimal value of the requested digits when they are all digits and lie inside the string and nothing otherwise; the value is exact for up to 9 digits.", "quantifier": "all strings, all start positions, all digit counts", "why_tests_cant": "Infinite domain; overflow occurs only for long inputs.", "anchors": [{"file": "include/metaf.hpp", "symbol": "strToUint"}, {"file": "include/metaf.hpp", "symbol": "fractionStrToUint"}, {"file": "include/metaf.hpp", "symbol": "MiscGroup::appendDensityAltitude"}]}
{"id": "C21", "title": "Hand-written value parsers accept exactly the documented formats", "statement": "Each fromString-style parser (Runway, MetafTime, Temperature, Speed, Distance, Direction, Pressure, Precipitation, SurfaceFriction, WaveHeight, CloudType) accepts exactly the strings matching the regular expression stated in its comment / documentation.", "quantifier": "all byte strings", "why_tests_cant": "Equality of two languages over all strings.", "anchors": [{"file": "include/metaf.hpp", "symbol": "Runway::fromString"}, {"file": "include/metaf.hpp", "symbol": "MetafTime::fromStringDDHHMM"}, {"file": "include/metaf.hpp", "symbol": "Temperature::fromString"}, {"file": "include/metaf.hpp", "symbol": "Distance::fromMileString"}, {"file": "include/metaf.hpp", "symbol": "Pressure::fromString"}]}
{"id": "C22", "title": "Report times decode to day, hour and minute", "statement": "Parsing the 6-digit, 4-digit and DDHH forms yields the encoded day/hour/minute; isValid holds iff day is absent or 1..31, hour 0..24, minute 0..59.", "quantifier": "all strings; all day/hour/minute values", "why_tests_cant": "Whole input domain.", "anchors": [{"file": "include/metaf.hpp", "symbol": "MetafTime::fromStringDDHHMM"}, {"file": "include/metaf.hpp", "symbol": "MetafTime::fromStringDDHH"}, {"file": "include/metaf.hpp", "symbol": "MetafTime::isValid"}]}
{"id": "C23", "title": "dateBeforeRef yields the most recent matching date not after the reference", "statement": "For a reference date and a time with a day, the result has that day, is not later than the reference date, and is the latest month/year satisfying this; without a day it is the reference date itself or the previous day semantics documented.", "quantifier": "all times, all reference dates", "why_tests_cant": "Year/month roll-over for all dates.", "anchors": [{"file": "include/metaf.hpp", "symbol": "MetafTime::dateBeforeRef"}]}
{"id": "C24", "title": "3-hourly and 6-hourly report times are classified as documented", "statement": "is3hourlyReportTime / is6hourlyReportTime are mutually exclusive and hold exactly within the documented windows around 03/09/15/21Z and 00/06/12/18Z.", "quantifier": "all hour/minute values", "why_tests_cant": "Whole domain; precipitation group meaning depends on it.", "anchors": [{"file": "include/metaf.hpp", "symbol": "MetafTime::is3hourlyReportTime"}, {"file": "include/metaf.hpp", "symbol": "MetafTime::is6hourlyReportTime"}]}
{"id": "C25", "title": "Temperatures decode to the reported value and sign", "statement": "Temperature::fromString / fromRemarkString return exactly the reported whole degrees / tenths (through the float conversions) with isFreezing set iff the sign is minus; toUnit is consistent.", "quantifier": "all temperature strings", "why_tests_cant": "Floating point rounding for each value; negative zero.", "anchors": [{"file": "include/metaf.hpp", "symbol": "Temperature::fromString"}, {"file": "include/metaf.hpp", "symbol": "Temperature::fromRemarkString"}, {"file": "include/metaf.hpp", "symbol": "Temperature::toUnit"}]}
{"id": "C26", "title": "Statute mile visibility decodes to the reported value", "statement": "Distance::fromMileString decodes whole miles, fractions and run-together mixed numbers to the value they denote, to within 1/10000 mile and never more than the denoted value, with M/P prefixes as less/more than; an integer group followed by a fraction adds up.", "quantifier": "all visibility strings", "why_tests_cant": "All integer/fraction combinations.", "anchors": [{"file": "include/metaf.hpp", "symbol": "Distance::fromMileString"}, {"file": "include/metaf.hpp", "symbol": "Distance::fromIntegerAndFraction"}]}
{"id": "C27", "title": "Miles are presented as whole miles and a standard fraction", "statement": "Distance::miles returns an integer and fraction that approximate the stored distance within the documented resolution.", "quantifier": "all distances obtained by parsing", "why_tests_cant": "Floating point rounding over the domain.", "anchors": [{"file": "include/metaf.hpp", "symbol": "Distance::miles"}]}
{"id": "C28", "title": "Directions in degrees map to the correct octant", "statement": "Direction::cardinal partitions 0..360 degrees into the documented octants, returns NOT_REPORTED above 360, and with trueDirections distinguishes exactly 360/90/180/270; degrees() of a cardinal direction lies inside its octant.", "quantifier": "all direction values", "why_tests_cant": "Whole domain including boundaries.", "anchors": [{"file": "include/metaf.hpp", "symbol": "Direction::cardinal"}, {"file": "include/metaf.hpp", "symbol": "Direction::degrees"}]}
{"id": "C29", "title": "Direction sectors expand clockwise from the first to the last direction", "statement": "sectorCardinalDirToVector(from,to) terminates and lists every octant clockwise from 'from' to 'to', each once, at most eight.", "quantifier": "all pairs of directions", "why_tests_cant": "All pairs; termination.", "anchors": [{"file": "include/metaf.hpp", "symbol": "Direction::sectorCardinalDirToVector"}, {"file": "include/metaf.hpp", "symbol": "Direction::rotateOctantClockwise"}]}
{"id": "C30", "title": "directions() of vicinity and lightning groups has no duplicates", "statement": "The direction list of a VicinityGroup / LightningGroup, however it was assembled, has no duplicated direction and at most nine entries.", "quantifier": "all groups obtainable by parsing and appending", "why_tests_cant": "Unbounded histories.", "anchors": [{"file": "include/metaf.hpp", "symbol": "VicinityGroup::directions"}, {"file": "include/metaf.hpp", "symbol": "LightningGroup::directions"}]}
{"id": "C31", "title": "Weather phenomena survive their bit packing", "statement": "qualifier, descriptor, the list of up to three weather phenomena and the event of a WeatherPhenomena are returned exactly as given.", "quantifier": "all combinations of qualifier, descriptor, weather list and event", "why_tests_cant": "Cross product too large for unit tests; a wrong shift only affects some combinations.", "anchors": [{"file": "include/metaf.hpp", "symbol": "WeatherPhenomena::pack"}, {"file": "include/metaf.hpp", "symbol": "WeatherPhenomena::weather"}]}
{"id": "C32", "title": "Only well-formed weather phenomena are recognised", "statement": "A recognised weather group decodes back to the same text: it consists of an optional qualifier, optional descriptor and at most three distinct two-letter phenomena in the order written; SH, TS and FZ only with the phenomena documented in the code comments.", "quantifier": "all strings", "why_tests_cant": "All strings over the phenomena alphabet.", "anchors": [{"file": "include/metaf.hpp", "symbol": "WeatherPhenomena::fromString"}]}
{"id": "C33", "title": "isValid of a weather phenomenon never reads outside its list", "statement": "For every obtainable WeatherPhenomena value isValid() does not access elements beyond the list of phenomena.", "quantifier": "all obtainable values", "why_tests_cant": "Depends on an invariant established by the parser.", "anchors": [{"file": "include/metaf.hpp", "symbol": "WeatherPhenomena::isValid"}]}
{"id": "C34", "title": "Fixed-capacity group storage never overflows", "statement": "WeatherGroup never stores more than its capacity of phenomena, CloudTypesGroup never more than 8 cloud types and LightningGroup flags are bounded, for any group text and any number of appended groups; what does not fit is rejected or dropped, never written out of bounds.", "quantifier": "all strings, all append histories", "why_tests_cant": "Unbounded histories.", "anchors": [{"file": "include/metaf.hpp", "symbol": "WeatherGroup::addWeatherPhenomena"}, {"file": "include/metaf.hpp", "symbol": "CloudTypesGroup::parse"}, {"file": "include/metaf.hpp", "symbol": "CloudTypesGroup::append"}]}
{"id": "C35", "title": "Pressure decodes to the reported value", "statement": "QNH/altimeter/SLP/QFE groups yield the reported number in the reported unit, SLP being placed in the documented 950..1050 window.", "quantifier": "all pressure strings", "why_tests_cant": "Floating point and windowing for all values.", "anchors": [{"file": "include/metaf.hpp", "symbol": "Pressure::fromString"}, {"file": "include/metaf.hpp", "symbol": "Pressure::fromSlpString"}, {"file": "include/metaf.hpp", "symbol": "Pressure::fromQfeString"}]}
{"id": "C36", "title": "Precipitation amounts decode to the reported value", "statement": "Rainfall, remark and runway deposit amounts decode to the reported value and unit.", "quantifier": "all strings", "why_tests_cant": "All values.", "anchors": [{"file": "include/metaf.hpp", "symbol": "Precipitation::fromRainfallString"}, {"file": "include/metaf.hpp", "symbol": "Precipitation::fromRemarkString"}, {"file": "include/metaf.hpp", "symbol": "Precipitation::fromRunwayDeposits"}]}
{"id": "C37", "title": "Sea state and wave height decode consistently", "statement": "The state of sea surface derived from wave height is monotone in the height and returns the reported code for every S0..S9 group.", "quantifier": "all wave heights and codes", "why_tests_cant": "Threshold arithmetic for all values.", "anchors": [{"file": "include/metaf.hpp", "symbol": "WaveHeight::fromString"}, {"file": "include/metaf.hpp", "symbol": "WaveHeight::stateOfSurface"}]}
{"id": "C38", "title": "Runway friction and braking action decode consistently", "statement": "Braking action classification is monotone in the friction coefficient and returns the reported code for reported braking actions.", "quantifier": "all values", "why_tests_cant": "All values.", "anchors": [{"file": "include/metaf.hpp", "symbol": "SurfaceFriction::fromString"}, {"file": "include/metaf.hpp", "symbol": "SurfaceFriction::brakingAction"}]}
{"id": "C39", "title": "Visibility group fields are consistent with its type", "statement": "A maximum visibility is reported exactly for the variable visibility types, a minimum only for them and a plain visibility never for them; a runway is only given for runway types, a direction only for directional types and a sector only for sector types (VISNO, which names where visibility is not available, counts as each of these); runway and directional types always have theirs, and a trend is only given for runway visual range. This holds for every visibility group however assembled from accepted words.", "quantifier": "all visibility groups obtainable by parsing a word and appending further words, accepted or left to the next group, and all groups of all reports; an object which append declared invalid is excluded", "why_tests_cant": "Unbounded histories over an eighteen-state automaton.", "anchors": [{"file": "include/metaf.hpp", "symbol": "VisibilityGroup::parse"}, {"file": "include/metaf.hpp", "symbol": "VisibilityGroup::append"}]}
{"id": "C40", "title": "Trend groups combine as documented and only once", "statement": "PROB30/PROB40, BECMG/TEMPO/INTER and time spans combine in the documented order only; times once set are never overwritten by an appended group.", "quantifier": "all groups obtainable by parsing and appending", "why_tests_cant": "Histories.", "anchors": [{"file": "include/metaf.hpp", "symbol": "TrendGroup::append"}]}
{"id": "C41", "title": "Minimum and maximum temperatures are not mixed up", "statement": "For forecast temperature groups given as an unlabelled pair, minimum() is not above maximum(); labelled values go where their label says.", "quantifier": "all strings and append histories", "why_tests_cant": "All value pairs.", "anchors": [{"file": "include/metaf.hpp", "symbol": "MinMaxTemperatureGroup::fromForecast"}, {"file": "include/metaf.hpp", "symbol": "MinMaxTemperatureGroup::appendForecast"}]}
{"id": "C42", "title": "Every group is dispatched to exactly one visitor method", "statement": "Visitor::visit calls exactly one visit method, the one for the group's alternative, and passes the group, report part and raw string unchanged.", "quantifier": "all groups", "why_tests_cant": "All alternatives and values.", "anchors": [{"file": "include/metaf.hpp", "symbol": "Visitor::visit"}]}
{"id": "C43", "title": "Unit conversion keeps reportedness and is the identity for the same unit", "statement": "toUnit returns a value iff the quantity is reported (and the conversion exists); converting to the unit in which it is stored returns the stored value; conversions are monotone.", "quantifier": "all values and units", "why_tests_cant": "Floating point, whole domain.", "anchors": [{"file": "include/metaf.hpp", "symbol": "Speed::toUnit"}, {"file": "include/metaf.hpp", "symbol": "Distance::toUnit"}, {"file": "include/metaf.hpp", "symbol": "Pressure::toUnit"}, {"file": "include/metaf.hpp", "symbol": "Temperature::toUnit"}]}
{"id": "C44", "title": "Heat index and wind chill are only given inside their validity range", "statement": "heatIndex / windChill return a non-reported temperature outside the documented validity range and never execute undefined behaviour.", "quantifier": "all temperatures, humidities, wind speeds", "why_tests_cant": "Floating point domain including NaN.", "anchors": [{"file": "include/metaf.hpp", "symbol": "Temperature::heatIndex"}, {"file": "include/metaf.hpp", "symbol": "Temperature::windChill"}, {"file": "include/metaf.hpp", "symbol": "Temperature::relativeHumidity"}]}
{"id": "C45", "title": "Re-parsing never chooses the rejected group type again", "statement": "When a group is invalidated by its follower, its text is parsed again as some other group type or as UnknownGroup, never as the same type; the number of re-parses per group is bounded by one.", "quantifier": "all byte strings", "why_tests_cant": "Histories.", "anchors": [{"file": "include/metaf.hpp", "symbol": "GroupParser::reparse"}, {"file": "include/metaf.hpp", "symbol": "Parser::appendToLastResultGroup"}]}
{"id": "C46", "title": "The location code is returned verbatim", "statement": "A location group is recognised exactly for a letter followed by three letters or digits, only in the report header, and icaoLocation/toString returns the same four characters.", "quantifier": "all strings", "why_tests_cant": "All strings.", "anchors": [{"file": "include/metaf.hpp", "symbol": "LocationGroup::parse"}, {"file": "include/metaf.hpp", "symbol": "LocationGroup::toString"}]}
{"id": "C47", "title": "Every group of the result comes from the words of its raw text and nothing else", "statement": "In the result of Parser::parse, a group with text has the value obtained by parsing the first word of its rawString in its reportPart and appending the other words one after another; other words of the report do not change its value, except that a refused word may end it.", "quantifier": "all byte strings, all group limits, all groups of the result", "why_tests_cant": "Groups are assembled incrementally across loop iterations with re-parsing after failed appends; whether some history leaves a group with data of a word that is not in its rawString can only be settled for all reports.", "anchors": [{"file": "include/metaf.hpp", "symbol": "Parser::parse"}, {"file": "include/metaf.hpp", "symbol": "Parser::appendToLastResultGroup"}, {"file": "include/metaf.hpp", "symbol": "GroupInfo::rawString"}]}
{"id": "C48", "title": "Lightning and vicinity groups say what their words say", "statement": "A lightning group consists of an optional frequency word, a word beginning with LTG whose two-letter pieces give the types of lightning, words DSNT or VC of which the last counts, and up to two directions or sectors; a vicinity group names a phenomenon, an optional distance, up to two directions or sectors joined by an optional AND, and a movement. The accessors return exactly these values, directions of the second area are added after those of the first, and every such sequence of remark words is accepted.", "quantifier": "all sequences of words, all reports", "why_tests_cant": "The groups are assembled word by word by automata with unboundedly long histories; the claim is over all of them and over all combinations of directions.", "anchors": [{"file": "include/metaf.hpp", "symbol": "LightningGroup::parse"}, {"file": "include/metaf.hpp", "symbol": "LightningGroup::append"}, {"file": "include/metaf.hpp", "symbol": "VicinityGroup::append"}, {"file": "include/metaf.hpp", "symbol": "VicinityGroup::directions"}]}
{"id": "C49", "title": "Distances, speeds, runways and directions decode to the reported value", "statement": "A four-digit visibility is that many metres and 9999 is more than 10000 metres; a cloud height is hundreds of feet; a runway visual range keeps its less-than or more-than prefix and its unit; an icing or turbulence layer has its base in hundreds and its depth in thousands of feet; a speed has two digits, or three if at least 100, and the unit KT, MPS or KMH; a runway is its number and its designator L, C or R; a direction is a multiple of ten degrees or VRB. No other texts are recognised.", "quantifier": "all byte strings", "why_tests_cant": "The claim is an equivalence over all strings: every accepted text decodes to the reported value and every other text is rejected.", "anchors": [{"file": "include/metaf.hpp", "symbol": "Distance::fromMeterString"}, {"file": "include/metaf.hpp", "symbol": "Distance::fromHeightString"}, {"file": "include/metaf.hpp", "symbol": "Distance::fromRvrString"}, {"file": "include/metaf.hpp", "symbol": "Distance::fromLayerString"}, {"file": "include/metaf.hpp", "symbol": "Distance::fromKmString"}, {"file": "include/metaf.hpp", "symbol": "Speed::fromString"}, {"file": "include/metaf.hpp", "symbol": "Runway::fromString"}, {"file": "include/metaf.hpp", "symbol": "Direction::fromDegreesString"}]}
{"id": "C50", "title": "Wind groups say what their words say", "statement": "A wind group is a calm, surface wind or wind shear word with direction, speed, gusts, unit and shear height, a variable wind sector alone or after the surface wind, WS with a runway or ALL RWY, WSCONDS, WND MISG, PK WND with direction, speed and time, or WSHFT with an optional time and an optional FROPA. The accessors return exactly the values of these words; a time given in minutes only is in the hour of the report. No other sequence of words makes a wind group, and every such sequence is accepted.", "quantifier": "all sequences of words, all report times, all reports", "why_tests_cant": "The group is assembled word by word and depends on the report time found elsewhere in the report; the claim is over all words and all report times.", "anchors": [{"file": "include/metaf.hpp", "symbol": "WindGroup::parse"}, {"file": "include/metaf.hpp", "symbol": "WindGroup::append"}, {"file": "include/metaf.hpp", "symbol": "WindGroup::eventTime"}, {"file": "include/metaf.hpp", "symbol": "ReportMetadata::reportTime"}]}
{"id": "C51", "title": "Visibility groups say what their words say", "statement": "A visibility group is a distance in miles in one or two words, a distance in meters with an optional direction or NDV, a runway visual range with runway, range or variable range, unit and trend, or one of the remarks VIS, SFC VIS, TWR VIS, RVR MISG, RVRNO and VISNO with distances, variable distances, directions, sectors and runways. The accessors return exactly the values of these words, whole miles and fractions in separate words being added up. No other sequence of words makes a visibility group, and every such sequence is accepted.", "quantifier": "all sequences of words, all reports", "why_tests_cant": "An automaton of sixteen states over unbounded text decides where the group ends; the claim is over all words and all reports, in both directions.", "anchors": [{"file": "include/metaf.hpp", "symbol": "VisibilityGroup::parse"}, {"file": "include/metaf.hpp", "symbol": "VisibilityGroup::append"}, {"file": "include/metaf.hpp", "symbol": "VisibilityGroup::fromRvr"}, {"file": "include/metaf.hpp", "symbol": "VisibilityGroup::appendVariable"}]}
{"id": "C52", "title": "Cloud groups say what their words say", "statement": "In the body of a report a cloud group is NCD, NSC, CLR or SKC, an amount (or ///) with a height and an optional TCU, CB or ///, or VV with a height. In remarks it is CLD MISG, CHINO or CIG with a height or a variable height and an optional runway or direction, an obscuration with an amount and height, or two neighbouring amounts joined by V. The accessors return exactly the values of these words and the cloud type which follows from them. No other sequence of words makes a complete cloud group, and every such sequence is accepted. Likewise a group of low, middle and high clouds is 8/ with three codes, and a cloud type group is up to eight words with okta, type and height, or one word of types with okta run together.", "quantifier": "all sequences of words, all reports", "why_tests_cant": "Amounts, heights, convective types, runways and directions combine over several words and an append automaton of eight states decides where a group ends; the claim is over all words and all reports, in both directions.", "anchors": [{"file": "include/metaf.hpp", "symbol": "CloudGroup::parse"}, {"file": "include/metaf.hpp", "symbol": "CloudGroup::append"}, {"file": "include/metaf.hpp", "symbol": "CloudGroup::cloudType"}, {"file": "include/metaf.hpp", "symbol": "CloudTypesGroup::parse"}, {"file": "include/metaf.hpp", "symbol": "CloudTypesGroup::append"}, {"file": "include/metaf.hpp", "symbol": "LowMidHighCloudGroup::parse"}]}
{"id": "C53", "title": "Groups of temperature, pressure, pressure tendency, sea surface and runway state say what their words say", "statement": "A temperature group is two temperatures in whole degrees separated by a slash (the second may be omitted, either may be //), or in remarks T with one or two temperatures in tenths of a degree, T MISG or TD MISG. A pressure group is Q or A with four digits or slashes, in forecasts QNHxxxxINS, in remarks also SLPxxx, SLPNO, QFExxx with an optional hPa value, or PRES MISG. A pressure tendency is PRESRR, PRESFR or 5 with a code and three digits or slashes. A sea surface group is W with a temperature, a slash and the state of surface or wave height. A runway state group is SNOCLO for the aerodrome or a runway, CLRD or D with friction, or the codes of deposits, extent, depth and friction. The accessors return exactly these values (floating-point values up to rounding). No other sequence of words makes such a group, and every such sequence is accepted.", "quantifier": "all sequences of words, all reports", "why_tests_cant": "The texts combine independent codes and numbers (eleven deposits, eleven extents, a hundred depths and frictions and every runway); the claim is over all words and all reports, in both directions.", "anchors": [{"file": "include/metaf.hpp", "symbol": "TemperatureGroup::parse"}, {"file": "include/metaf.hpp", "symbol": "TemperatureGroup::append"}, {"file": "include/metaf.hpp", "symbol": "PressureGroup::parse"}, {"file": "include/metaf.hpp", "symbol": "PressureGroup::append"}, {"file": "include/metaf.hpp", "symbol": "PressureTendencyGroup::parse"}, {"file": "include/metaf.hpp", "symbol": "PressureTendencyGroup::trend"}, {"file": "include/metaf.hpp", "symbol": "SeaSurfaceGroup::parse"}, {"file": "include/metaf.hpp", "symbol": "RunwayStateGroup::parse"}]}
{"id": "C54", "title": "Groups of precipitation amounts, icing and turbulence, and other data say what their words say", "statement": "A precipitation group is RF with ten-minute rainfall and rainfall since 9AM in a METAR body; in remarks one of the codes P, 6, 7 with four digits or slashes, or 4/, 931, 933, I1, I3, I6, PP with three digits or slashes; PNO, FZRANO, ICG MISG, PCPN MISG; or SNINCR optionally followed by the increase and the depth. Code 6 is for 6 hours or 3 hours according to the hour of the report time and undecided if neither applies. An icing or turbulence group in a TAF is one of 21 codes with the base in hundreds of feet and the depth in thousands, or slashes. A miscellaneous group is one of 18 colour codes, the forecast issuer FN or FS with five digits, a correction CCA to CCZ, sunshine minutes 98xxx, FROIN, DENSITY ALT with feet or MISG, or GR with a hailstone size in quarters of an inch. The accessors return these types and values (exact, or up to rounding for decimal fractions). No other sequence of words makes such a group, and every such sequence is accepted.", "quantifier": "all sequences of words, all report times, all reports", "why_tests_cant": "The meaning of a code depends on the report time given many words before, amounts and altitudes range over all numbers, and the claim excludes every other sequence of words.", "anchors": [{"file": "include/metaf.hpp", "symbol": "PrecipitationGroup::parse"}, {"file": "include/metaf.hpp", "symbol": "PrecipitationGroup::append"}, {"file": "include/metaf.hpp", "symbol": "PrecipitationGroup::typeFromString"}, {"file": "include/metaf.hpp", "symbol": "LayerForecastGroup::parse"}, {"file": "include/metaf.hpp", "symbol": "LayerForecastGroup::typeFromStr"}, {"file": "include/metaf.hpp", "symbol": "MiscGroup::parse"}, {"file": "include/metaf.hpp", "symbol": "MiscGroup::append"}, {"file": "include/metaf.hpp", "symbol": "MiscGroup::appendHailstoneFraction"}, {"file": "include/metaf.hpp", "symbol": "MiscGroup::appendDensityAltitude"}]}
{"id": "C55", "title": "No word opens groups of two kinds, except five words of the remarks", "statement": "In every part of a report, if two kinds of group recognise the same text as the beginning of a group, they are the same kind, and the order in which the kinds are tried makes no difference. The only exceptions are FG, FU, BLSN, BLDU and BLSA in remarks, which begin both an obscuration (cloud group) and a phenomenon in the vicinity: they are read as an obscuration, and as a phenomenon in the vicinity if the next word cannot follow an obscuration. Any other group invalidated by a later word is reported as unknown text, never as a group of another kind.", "quantifier": "all strings, all parts of a report, all metadata, all orders of the kinds of group", "why_tests_cant": "It compares the sets of words recognised by 21 recognisers, most of them infinite or very large, pair by pair.", "anchors": [{"file": "include/metaf.hpp", "symbol": "GroupParser::parse"}, {"file": "include/metaf.hpp", "symbol": "GroupParser::reparse"}, {"file": "include/metaf.hpp", "symbol": "GroupParser::parseAlternative"}, {"file": "include/metaf.hpp", "symbol": "GroupParser::reparseAlternative"}, {"file": "include/metaf.hpp", "symbol": "Group"}]}
{"id": "C56", "title": "A report is read group by group", "statement": "Take a report made of a header (type, correction, location, time, forecast span, where these apply), a sequence of groups of the body and optionally RMK and a sequence of groups of the remarks, where each group is one of: the words of a recognised group, which the next word (or the end of the report) does not continue; a word that begins no group; an incomplete group that the next word does not complete. Then parsing succeeds without error and returns exactly the header groups, the body groups, RMK and the remark groups, in this order, each with its report part and with its words joined by spaces as raw string; the last two sorts of text become unknown groups, joined when adjacent. The report type and time are those of the header. A METAR without METAR or SPECI at the beginning is read in the same way. No report can be divided into groups in two ways with different results.", "quantifier": "all reports of this form with fewer words than the limit, any number of groups in body and remarks, any whitespace between words, both kinds of plain char", "why_tests_cant": "It ranges over all sequences of groups of all kinds and over every pair of neighbours; tests check particular reports.", "anchors": [{"file": "include/metaf.hpp", "symbol": "Parser::parse"}, {"file": "include/metaf.hpp", "symbol": "Parser::appendToLastResultGroup"}, {"file": "include/metaf.hpp", "symbol": "Parser::addGroupToResult"}, {"file": "include/metaf.hpp", "symbol": "Parser::updateMetadata"}, {"file": "include/metaf.hpp", "symbol": "Parser::Status::transition"}, {"file": "include/metaf.hpp", "symbol": "GroupParser::parse"}, {"file": "include/metaf.hpp", "symbol": "GroupParser::reparse"}]}
{"id": "C57", "title": "isValid() tells exactly whether the values of a group are in range", "statement": "For every group of a result, isValid() returns true exactly if the values its accessors return are in range: days 1..31, hours up to 24 and minutes up to 59; directions up to 360 degrees; runway numbers up to 36, or 88 or 99 without designator; gusts present only if nonzero and above the wind speed, and a nonzero height of wind shear; the lower visibility not above the higher one; the dew point not above the temperature (M00 being below 00); the minimum below the maximum temperature; cloud types covering 1 to 8 oktas; no reserved extent of a runway deposit; freezing only with drizzle, rain, fog or undetermined precipitation; middle and high clouds not observable if lower ones are not; a probability only together with a change or time span; no unknown word in a lightning group; all other groups always. The one exception is a wind of 999 units without gusts, which is not valid though nothing in the documentation excludes it.", "quantifier": "all groups with a nonempty text of all parse results of all reports, both kinds of plain char", "why_tests_cant": "It compares the verdict with the values for every combination of values a report can bring into a group, including comparisons of floating-point visibilities and temperatures; tests check single groups.", "anchors": [{"file": "include/metaf.hpp", "symbol": "MetafTime::isValid"}, {"file": "include/metaf.hpp", "symbol": "Runway::isValid"}, {"file": "include/metaf.hpp", "symbol": "Direction::isValid"}, {"file": "include/metaf.hpp", "symbol": "WeatherPhenomena::isValid"}, {"file": "include/metaf.hpp", "symbol": "WindGroup::isValid"}, {"file": "include/metaf.hpp", "symbol": "VisibilityGroup::isValid"}, {"file": "include/metaf.hpp", "symbol": "TemperatureGroup::isValid"}, {"file": "include/metaf.hpp", "symbol": "MinMaxTemperatureGroup::isValid"}, {"file": "include/metaf.hpp", "symbol": "CloudTypesGroup::isValid"}, {"file": "include/metaf.hpp", "symbol": "RunwayStateGroup::isValid"}, {"file": "include/metaf.hpp", "symbol": "LowMidHighCloudGroup::isValid"}, {"file": "include/metaf.hpp", "symbol": "TrendGroup::isValid"}, {"file": "include/metaf.hpp", "symbol": "LightningGroup::isValid"}]}
{"id": "C58", "title": "Weather groups say what their words say", "statement": "A weather group is made of exactly these words: up to 20 words of the body which each report one well-formed phenomenon (two slashes for weather that cannot be observed in METAR; no recent weather in TAF), all current or all recent; NSW; in remarks PWINO, TSNO, WX MISG, TS/LTNG TEMPO UNAVBL, or one word made of events, if the report time is known. An event is a phenomenon without qualifier, B or E, and an optional hour of two digits and a minute of two digits; the phenomenon may be left out if it is that of the event before and that had a proper time; the hour is that of the report if left out. The group's accessors return the type and, in the order of the words, the qualifier, descriptor, weather, event and time of each phenomenon (the first 20 of a word with events). Every such sequence of words makes such a group, and every weather group of every report says what its words say.", "quantifier": "all sequences of words, both directions; all weather groups of all parse results, with the report time of the metadata", "why_tests_cant": "The phenomena, their combinations and the sequences of events in one word are unbounded in number, and the second direction says that nothing else is recognised.", "anchors": [{"file": "include/metaf.hpp", "symbol": "WeatherGroup::parse"}, {"file": "include/metaf.hpp", "symbol": "WeatherGroup::append"}, {"file": "include/metaf.hpp", "symbol": "WeatherGroup::parseWeatherWithoutEvent"}, {"file": "include/metaf.hpp", "symbol": "WeatherGroup::parseWeatherEvent"}, {"file": "include/metaf.hpp", "symbol": "WeatherPhenomena::fromString"}, {"file": "include/metaf.hpp", "symbol": "WeatherPhenomena::fromWeatherBeginEndString"}]}
{"id": "C59", "title": "The reports read without error are exactly the well-formed ones", "statement": "Parsing gives no error exactly if the words of the text before the first = are a report and there are fewer of them than the limit (a METAR report which begins with its location counts one word more). A report is: a header, a body and optional remarks after RMK, where the header is METAR or SPECI with optional COR, location and time, or TAF with optional COR or AMD, location, optional time and time span, or location, time and optional time span without type; and the body (not empty if there are no remarks) and the remarks are any sequences of groups and of text which is not recognised, except that NIL, CNL and RMK do not occur, and $ does in METAR only. Or it is a report which ends with NIL after the location, after the time or after the header, or a TAF report which ends with CNL after the header. Type, report time and groups are then those of that reading, and there is only one.", "quantifier": "all texts, all limits, all types, times and lists of groups, both directions", "why_tests_cant": "Both which texts are accepted and which are rejected range over all texts; the second direction says that nothing else is accepted.", "anchors": [{"file": "include/metaf.hpp", "symbol": "Parser::parse"}, {"file": "include/metaf.hpp", "symbol": "Parser::Status::transition"}, {"file": "include/metaf.hpp", "symbol": "Parser::Status::finalTransition"}, {"file": "include/metaf.hpp", "symbol": "Parser::appendToLastResultGroup"}, {"file": "include/metaf.hpp", "symbol": "GroupParser::parse"}]}
{"id": "C60", "title": "Every report is read as the longest texts of groups, as the words say", "statement": "The body and the remarks of a report read without error are divided into groups by what words can say alone: each group takes the most words with which a text of its kind begins. If these words are a whole text of that kind, the group is of this kind and tells what the words say; if they are only the beginning of one, or no kind of group begins with the word, the text is not recognised. The exceptions are stated: SFC VIS or TWR VIS followed by a range of values is not recognised; OVC (with or without height and V) in the remarks is taken for the beginning of a variable amount of clouds; FG, FU, BLSN, BLDU and BLSA in the remarks are clouds if an amount of clouds follows, else phenomena in the vicinity, and if neither follows a vicinity group without text precedes the unrecognised text. Conversely words which can be divided so, after a header as in C59, are read without error, as groups of the same kinds with the same texts; the division is unique.", "quantifier": "all texts, all limits, all types, times and lists of groups, both directions; all sequences of words of every kind of group", "why_tests_cant": "Whether a word is left to the next group depends on all texts of the kind of group, which are infinitely many; tests try single reports.", "anchors": [{"file": "include/metaf.hpp", "symbol": "Parser::parse"}, {"file": "include/metaf.hpp", "symbol": "Parser::appendToLastResultGroup"}, {"file": "include/metaf.hpp", "symbol": "GroupParser::parse"}, {"file": "include/metaf.hpp", "symbol": "GroupParser::reparse"}, {"file": "include/metaf.hpp", "symbol": "VisibilityGroup::append"}, {"file": "include/metaf.hpp", "symbol": "CloudGroup::append"}, {"file": "include/metaf.hpp", "symbol": "VicinityGroup::append"}]}
{"id": "C61", "title": "The weather summary is returned for all texts", "statement": "getCurrentWeather returns a summary for any two texts given as METAR and TAF, any date and both systems of units; no exception, no endless loop, no undefined behaviour, in particular no conversion to int of a value which int cannot hold.", "quantifier": "all pairs of texts, all ints as year, month and day, both systems of units, both kinds of plain char, all functions pow with moderate results", "why_tests_cant": "The values come from arbitrary texts through floating-point conversions and formulas; tests try single reports.", "anchors": [{"file": "examples/summary.cpp", "symbol": "getCurrentWeather"}, {"file": "examples/summary.cpp", "symbol": "currentWeatherFromMetar"}, {"file": "examples/summary.cpp", "symbol": "currentWeatherFromTaf"}, {"file": "examples/summary.cpp", "symbol": "temperatureForecastFromTaf"}, {"file": "examples/summary.cpp", "symbol": "reportReleaseTime"}]}
{"id": "C62", "title": "The values of the weather summary are those last reported", "statement": "If the METAR is a METAR report read without error, wind direction and speed, gusts, visibility, temperature, perceived temperature, humidity and pressure of the summary are those of the last group before the first trend that reports them (surface wind, prevailing visibility or CAVOK, QNH), in the units asked for and without the fraction, and not specified if there is none; the perceived temperature is the heat index, else the wind chill, else the air temperature, of the last temperature group with the surface wind reported before it. Otherwise wind and visibility are those of the TAF before the second trend group, and the others are not specified. Wind is variable exactly if such a wind group says so; there are storm clouds exactly if such a cloud group tells cumulonimbus. The highest and lowest temperature are those of the last minimum and maximum temperature of the TAF. The release time is that of the report used, on the day of the report in the current month or the month before. Speeds, temperatures and hectopascals are exact; miles of visibility and inches of mercury have a small error.", "quantifier": "all pairs of texts, all dates, both systems of units, both kinds of plain char", "why_tests_cant": "All sequences of groups in any order, and exactness of truncated floating-point conversions for all values.", "anchors": [{"file": "examples/summary.cpp", "symbol": "getCurrentWeather"}, {"file": "examples/summary.cpp", "symbol": "currentWeatherFromMetar"}, {"file": "examples/summary.cpp", "symbol": "currentWeatherFromTaf"}, {"file": "examples/summary.cpp", "symbol": "temperatureForecastFromTaf"}, {"file": "examples/summary.cpp", "symbol": "reportReleaseTime"}]}
{"id": "C63", "title": "Weather symbols tell the reported weather", "statement": "The weather list of the summary has, for each current weather phenomenon of the report used, in order, its symbols: one for weather in the vicinity; otherwise one for a thunderstorm, and one for each kind of weather. Each symbol tells the same kind of weather, tells strength and descriptor only if they are the reported ones (no sign means moderate), and of all such symbols it is the one that tells most.", "quantifier": "all pairs of texts; all combinations of qualifier, descriptor and weather", "why_tests_cant": "There are more than a thousand combinations, and any sequence of them in any report.", "anchors": [{"file": "examples/summary.cpp", "symbol": "weatherFromWeatherPhenomena"}, {"file": "examples/summary.cpp", "symbol": "phenomenaFromWeatherGroup"}, {"file": "examples/summary.cpp", "symbol": "phenomenaInVicinity"}]}
{"id": "C64", "title": "The sky of the summary is the greatest reported amount of clouds", "statement": "The sky is not specified exactly if no group tells the amount of clouds. Otherwise it is the greatest amount told by a cloud layer or CAVOK (of variable amounts, the greater one); it is never greater than all amounts told.", "quantifier": "all pairs of texts, all sequences of cloud groups", "why_tests_cant": "All sequences of layers in any order.", "anchors": [{"file": "examples/summary.cpp", "symbol": "cloudFromCloudGroupAmount"}, {"file": "examples/summary.cpp", "symbol": "currentWeatherFromMetar"}, {"file": "examples/summary.cpp", "symbol": "currentWeatherFromTaf"}]}
{"id": "C65", "title": "An explanation is returned for every text", "statement": "explain() returns a table for every text: it throws no exception, does not loop forever and has no undefined behaviour (no empty optional is dereferenced, no enumeration value without text is met, no float out of range is converted to int).", "quantifier": "all texts, in any encoding", "why_tests_cant": "Each of the explaining functions relies on what groups the parser can produce; all texts must be known to give no others.", "anchors": [{"file": "examples/explain.cpp", "symbol": "explain"}, {"file": "examples/explain.cpp", "symbol": "VisitorExplain::visitVisibilityGroup"}, {"file": "examples/explain.cpp", "symbol": "VisitorExplain::visitWindGroup"}]}
{"id": "C66", "title": "The table has one row per group, in order, without foreign markup", "statement": "The table has a row for the type of the report, a row for the error if there is one, and then exactly one row for each group found by the parser, in order, with the text of the group and its explanation, in which each end of a line has become one line break. The cells have no markup other than these line breaks.", "quantifier": "all texts", "why_tests_cant": "The replacement loop and the texts depend on the whole content of the report.", "anchors": [{"file": "examples/explain.cpp", "symbol": "explain"}]}
{"id": "C67", "title": "No value is missing from an explanation", "statement": "The texts which say that a value could not be produced or converted ('[unable to ...') are never shown: where an explanation gets to a value, there is one.", "quantifier": "all texts", "why_tests_cant": "It is a property of every group that any report can contain.", "anchors": [{"file": "examples/explain.cpp", "symbol": "VisitorExplain::explainDistance"}, {"file": "examples/explain.cpp", "symbol": "VisitorExplain::explainTemperature"}, {"file": "examples/explain.cpp", "symbol": "VisitorExplain::explainPressure"}]}
{"id": "C68", "title": "Numbers with decimals are those of the API", "statement": "Temperatures, pressures, amounts of precipitation, wave heights and friction coefficients are shown as the value the API returns in the unit named, with the stated number of decimals, rounded to the nearest.", "quantifier": "all floating-point values", "why_tests_cant": "All 2^32 floats and all numbers of decimals.", "anchors": [{"file": "examples/explain.cpp", "symbol": "VisitorExplain::roundTo"}, {"file": "examples/explain.cpp", "symbol": "VisitorExplain::explainTemperature"}, {"file": "examples/explain.cpp", "symbol": "VisitorExplain::explainPressure"}, {"file": "examples/explain.cpp", "symbol": "VisitorExplain::explainPrecipitation"}, {"file": "examples/explain.cpp", "symbol": "VisitorExplain::explainWaveHeight"}, {"file": "examples/explain.cpp", "symbol": "VisitorExplain::explainSurfaceFriction"}]}
{"id": "C69", "title": "An explanation warns exactly if the group is not valid", "statement": "The explanation of a group starts with the warning that its data may be erroneous, incomplete or inconsistent exactly if isValid() of the group is false.", "quantifier": "all groups with all values, all report parts and raw texts", "why_tests_cant": "Seventeen kinds of groups with unbounded values; no other text may start with the warning.", "anchors": [{"file": "examples/explain.cpp", "symbol": "VisitorExplain::visitKeywordGroup"}, {"file": "examples/explain.cpp", "symbol": "VisitorExplain::visitWindGroup"}, {"file": "examples/explain.cpp", "symbol": "groupNotValidMessage"}]}
{"id": "C70", "title": "Numbers are shown as reported", "statement": "Times are shown with two digits for hour and minute and the day of the month, runways with two digits and designator, speeds, directions in degrees and distances with the number and the unit reported (and less-than or more-than signs), miles with their fraction. Speeds are also shown in the three other units and distances in the two other units, as the API converts them. Durations of sunshine, density altitudes and sizes of hailstones are shown as reported if they have up to six digits, and otherwise rounded to six digits.", "quantifier": "all values of times, runways, speeds, directions, distances, and all numbers of the three kinds of remarks", "why_tests_cant": "All numbers of any length, and float conversions in between.", "anchors": [{"file": "examples/explain.cpp", "symbol": "VisitorExplain::explainMetafTime"}, {"file": "examples/explain.cpp", "symbol": "VisitorExplain::explainRunway"}, {"file": "examples/explain.cpp", "symbol": "VisitorExplain::explainSpeed"}, {"file": "examples/explain.cpp", "symbol": "VisitorExplain::explainDirection"}, {"file": "examples/explain.cpp", "symbol": "VisitorExplain::explainDistance"}, {"file": "examples/explain.cpp", "symbol": "VisitorExplain::visitMiscGroup"}, {"file": "examples/explain.cpp", "symbol": "VisitorExplain::distanceMilesFractionToString"}]}
{"id": "C71", "title": "Different codes are explained by different texts", "statement": "Two different values of an enumeration (cloud amounts and types, weather, directions, sea states, deposits, tendencies, cloud layers, ...) are explained by different texts.", "quantifier": "all pairs of values of each enumeration", "why_tests_cant": "All pairs of values of eighteen tables.", "anchors": [{"file": "examples/explain.cpp", "symbol": "VisitorExplain::cloudTypeToString"}, {"file": "examples/explain.cpp", "symbol": "VisitorExplain::cloudAmountToString"}, {"file": "examples/explain.cpp", "symbol": "VisitorExplain::weatherPhenomenaWeatherToString"}]}
{"id": "C72", "title": "No reported value is left out of an explanation", "statement": "Whatever value the accessors of a group return as reported (times, speeds, directions, distances, temperatures, pressures, amounts, runways, trends, deposits, cloud layers, ...), the explanation of the group tells it, as the text of that value right after a label which says what it is (wind speed, dew point, maximum temperature, ...), or in other words which say the same.", "quantifier": "all reports, all groups found in them, all their values", "why_tests_cant": "Which values a group can have depends on its type and on all texts of it; a missing value in some combination of type and values shows only for reports with that combination.", "anchors": [{"file": "examples/explain.cpp", "symbol": "VisitorExplain::visitVisibilityGroup"}, {"file": "examples/explain.cpp", "symbol": "VisitorExplain::visitRunwayStateGroup"}, {"file": "examples/explain.cpp", "symbol": "VisitorExplain::explainWeatherPhenomena"}, {"file": "examples/explain.cpp", "symbol": "VisitorExplain::visitWindGroup"}, {"file": "examples/explain.cpp", "symbol": "VisitorExplain::visitCloudGroup"}]}
{"id": "C73", "title": "Explanations name the group and its codes in the right words", "statement": "The explanation of a group has the words which tell what kind of group it is (each type of every class of groups), and the text of each value of an enumeration has the words for that value: compass points, braking actions with the bounds of the friction coefficient, sea states with wave heights, cloud amounts with eighths of the sky, types of clouds, codes of cloud layers, deposits, extents, tendencies, icing and turbulence; weather phenomena are told by strength, descriptor and all kinds of weather.", "quantifier": "all groups, all values of the enumerations, all weather phenomena", "why_tests_cant": "There are several hundred texts and unboundedly many combinations with the values of a group; two texts which are mixed up read well.", "anchors": [{"file": "examples/explain.cpp", "symbol": "VisitorExplain::visitKeywordGroup"}, {"file": "examples/explain.cpp", "symbol": "VisitorExplain::visitVicinityGroup"}, {"file": "examples/explain.cpp", "symbol": "VisitorExplain::explainWeatherPhenomena"}, {"file": "examples/explain.cpp", "symbol": "VisitorExplain::cloudTypeToString"}]}
{"id": "C74", "title": "The texts of the groups of a result give the same result when parsed", "statement": "For every text, parsing the raw strings of the groups of the result, put together in order with single spaces, gives the same result again: the same groups, parts and raw strings, and the same metadata including the error, if there is one.", "quantifier": "all texts, all group limits, both signednesses of plain char", "why_tests_cant": "Groups consist of several words, words are re-parsed and merged, and parsing may stop anywhere; that none of this depends on what was cut away is a statement about all reports.", "anchors": [{"file": "include/metaf.hpp", "symbol": "Parser::parse"}, {"file": "include/metaf.hpp", "symbol": "GroupInfo::rawString"}]}
{"id": "C75", "title": "Words added at the end of a report change at most its last two groups", "statement": "If words are added at the end of a report, the groups of the result stay as they are, up to the last two with text. If parsing stopped with an error at a word of the report, the added words make no difference at all.", "quantifier": "all texts, all added texts, all group limits", "why_tests_cant": "The words before the end are arbitrary in number and kind, and a group may be re-parsed and merged with the one before it.", "anchors": [{"file": "include/metaf.hpp", "symbol": "Parser::parse"}, {"file": "include/metaf.hpp", "symbol": "Parser::appendToLastResultGroup"}, {"file": "include/metaf.hpp", "symbol": "Parser::addGroupToResult"}]}
{"id": "C76", "title": "The tutorial program lists every group of the report with its kind", "statement": "For every report the tutorial program prints the report, the error, the detected type, the number of groups and then one line per group, in order, which names the kind of the group and has its text. The lines of two groups are the same only if kind and text are the same; different errors and different types are told by different words.", "quantifier": "all texts in place of the program's report", "why_tests_cant": "The listing depends on the result of the parser for an arbitrary text.", "anchors": [{"file": "examples/tutorial.cpp", "symbol": "main"}, {"file": "examples/tutorial.cpp", "symbol": "MyVisitor"}]}
{"id": "C77", "title": "A group object that waits for more words is not valid", "statement": "If append() of a group object answers GROUP_INVALIDATED to some word, or to the empty word at the end of the report, then isValid() of that object was false before: a program which builds groups word by word never takes half a group for a whole one.", "quantifier": "all group objects of all kinds, all words, all report parts, all metadata", "why_tests_cant": "The word that follows is arbitrary, and so are the words before it.", "anchors": [{"file": "include/metaf.hpp", "symbol": "append (of all group classes)"}, {"file": "include/metaf.hpp", "symbol": "isValid (of all group classes)"}]}
{"id": "C78", "title": "Only capital letters, digits and the signs + - . / $ are read", "statement": "Every word of every group of the result which is not an unknown one consists of capital letters, digits and the signs + - . / $ only: free text, words in small letters and words with any other character (control characters, bytes above 127) are never read as weather.", "quantifier": "all reports (all byte strings), all group limits, all groups of the result, all words of each", "why_tests_cant": "The bytes of the words are arbitrary; most kinds of groups go through regular expressions, but some words are picked apart by hand-written code.", "anchors": [{"file": "include/metaf.hpp", "symbol": "Parser::parse"}, {"file": "include/metaf.hpp", "symbol": "parse, append (of all group classes)"}, {"file": "include/metaf.hpp", "symbol": "LightningGroup::fromLtgGroup"}]}
{"id": "C79", "title": "The same words mean the same wherever they stand", "statement": "Two groups with the same text, in the same part of reports issued at the same time, are the same group with the same values; in particular, if one of them was understood, so was the other. Neither the other groups of the report, nor the words before and after it, nor the group limit change what the words of a group say.", "quantifier": "all pairs of reports (all byte strings) with the same issue time, all group limits, all pairs of groups of their results with the same text and report part", "why_tests_cant": "The parser keeps the last group open and rewrites it while further words arrive, and groups are parsed with the metadata of everything before; a test can only try a few surroundings of a few groups.", "anchors": [{"file": "include/metaf.hpp", "symbol": "Parser::parse"}, {"file": "include/metaf.hpp", "symbol": "Parser::appendToLastResultGroup"}, {"file": "include/metaf.hpp", "symbol": "parse, append (of all group classes)"}]}
{"id": "C80", "title": "A smaller group limit only cuts the result off", "statement": "If the same text is parsed with two group limits, the result for the smaller limit is the beginning of the result for the larger one, up to its last two groups with text; the words read with the smaller limit are the first of the words read with the larger one.", "quantifier": "all texts, all pairs of group limits", "why_tests_cant": "Both the text and the limits are arbitrary, and the limit can stop parsing in the middle of a group of several words, or at the word which is parsed twice because the report type is missing.", "anchors": [{"file": "include/metaf.hpp", "symbol": "Parser::parse"}, {"file": "include/metaf.hpp", "symbol": "Parser::appendToLastResultGroup"}, {"file": "include/metaf.hpp", "symbol": "Parser::addGroupToResult"}]}
{"id": "C81", "title": "A foreign word changes nothing else", "statement": "If a word with a character which does not occur in METAR and TAF groups (for example a small letter) is put between two groups of the body or of the remarks of a report which is parsed without error, the longer report is parsed without error too, with the same metadata and the same other groups; the new word is an unknown group, or part of one together with the unknown words beside it.", "quantifier": "all reports parsed without error, all places between groups after the header, all such words (not beginning with LTG), all larger group limits", "why_tests_cant": "The reports, the places and the words are unbounded in number, and each of the multi-word group kinds reacts to the next word in its own way.", "anchors": [{"file": "include/metaf.hpp", "symbol": "Parser::parse"}, {"file": "include/metaf.hpp", "symbol": "Parser::appendToLastResultGroup"}, {"file": "include/metaf.hpp", "symbol": "UnknownGroup::append"}]}
{"id": "C82", "title": "The text on the summary page shows the values of the summary", "statement": "The text beside each station has one line for each value of the summary which is specified (weather, sky, temperatures, humidity, wind, visibility, pressure, time of the observation), with that value and its unit, and no line for a value which is not specified.", "quantifier": "all current weather records, both unit systems, all clocks", "why_tests_cant": "The records range over all integers; which lines appear depends on every combination of specified and missing values.", "anchors": [{"file": "examples/shellfiles/summary_shell.html", "symbol": "currentWeatherToHTML"}, {"file": "examples/shellfiles/summary_shell.html", "symbol": "adaptCurrentWeather"}, {"file": "examples/summary.cpp", "symbol": "EMSCRIPTEN_BINDINGS"}]}
{"id": "C83", "title": "The summary page has the right words for weather and clouds", "statement": "For each weather symbol and each kind of sky the page has a text which names its kind, strength, manner and nearness and no other, and different symbols have different texts.", "quantifier": "all weather symbols and kinds of sky", "why_tests_cant": "Three tables (the enumeration in C++, the names of the bindings, the switch in JavaScript) must agree row by row.", "anchors": [{"file": "examples/shellfiles/summary_shell.html", "symbol": "weatherPhenomenaToText"}, {"file": "examples/shellfiles/summary_shell.html", "symbol": "cloudToText"}, {"file": "examples/summary.cpp", "symbol": "EMSCRIPTEN_BINDINGS"}]}
{"id": "C84", "title": "The widget on the summary page shows the values of the summary", "statement": "The widget of each station shows temperature, wind, visibility and pressure of the summary in the chosen units, and == for a value which is not specified; the arrow points where the wind blows, and there is none without a direction.", "quantifier": "all current weather records, both unit systems", "why_tests_cant": "The records range over all integers and all combinations of missing values.", "anchors": [{"file": "examples/shellfiles/summary_shell.html", "symbol": "makeWeatherWidget"}, {"file": "examples/shellfiles/summary_shell.html", "symbol": "valueOrNullToString"}]}
{"id": "C85", "title": "The icon is that of the most important weather", "statement": "The icon is chosen by the most important phenomenon, in a fixed order from tornado to clear sky; it does not depend on order or number of the phenomena; the icon for missing data is shown only if nothing is known.", "quantifier": "all current weather records, both unit systems", "why_tests_cant": "There are more than fifty symbols in any combination and order, with temperatures and wind.", "anchors": [{"file": "examples/shellfiles/summary_shell.html", "symbol": "makeWeatherIcon"}]}
{"id": "C86", "title": "The page has one entry for each station, with its own data", "statement": "From the answers of the server the page makes exactly one entry for each station named in a METAR or TAF, in the order in which they are named first. It has the last METAR, the last TAF and the last name given for that station, and the position given with its METAR, or else with its first TAF.", "quantifier": "all lists of METAR, TAF and station elements with any children", "why_tests_cant": "The answers are lists of any length, in any order, with stations missing from some of them or named repeatedly.", "anchors": [{"file": "examples/shellfiles/summary_shell.html", "symbol": "AWCdataToMap"}, {"file": "examples/shellfiles/summary_shell.html", "symbol": "addStationNames"}, {"file": "examples/shellfiles/summary_shell.html", "symbol": "getReportFromNodeList"}, {"file": "examples/shellfiles/summary_shell.html", "symbol": "getStationFromNodeList"}]}
{"id": "C87", "title": "All stations are displayed", "statement": "For all stations of the answers name, distance, widget and text of the summary of their own METAR and TAF are displayed, in the order of the stations; a station without name is displayed as NAME UNKNOWN.", "quantifier": "all answers of the server, all texts of reports, both unit systems, all dates", "why_tests_cant": "An exception for one station would hide all later ones; that none is thrown has to hold for every text.", "anchors": [{"file": "examples/shellfiles/summary_shell.html", "symbol": "displayWeatherData"}, {"file": "examples/shellfiles/summary_shell.html", "symbol": "getAWCweather"}, {"file": "examples/summary.cpp", "symbol": "getCurrentWeather"}]}
{"id": "C88", "title": "A foreign word changes neither the summary nor the other rows of the explanation", "statement": "If a word with a character which does not occur in METAR and TAF groups is put between two groups of a report which is parsed without error, the weather summary stays the same, and the table of explanations has one more row at that place and all others unchanged.", "quantifier": "all METAR and TAF reports parsed without error, all places between groups after the header, all such words, all dates and unit systems", "why_tests_cant": "Reports, places and words are unbounded in number; both programs go through all groups of the report with state.", "anchors": [{"file": "examples/summary.cpp", "symbol": "getCurrentWeather"}, {"file": "examples/explain.cpp", "symbol": "explain"}, {"file": "include/metaf.hpp", "symbol": "Parser::parse"}]}
{"id": "C89", "title": "The performance program processes every report of its input", "statement": "Without a file the performance program processes each METAR and TAF of its collection 300 times, with a file every line of it; the last progress line gives the number of reports processed, of all reports, the percentage and the number of groups.", "quantifier": "all collections, all contents of the input file, all clocks, all command lines without --help and --expint", "why_tests_cant": "Files are read in batches of 64000 lines; no test file reaches the end of a batch, and the content is arbitrary.", "anchors": [{"file": "performance/main.cpp", "symbol": "BatchFromFile"}, {"file": "performance/main.cpp", "symbol": "ParserPerformanceTester::test"}, {"file": "performance/main.cpp", "symbol": "main"}]}
{"id": "C90", "title": "Every group is archived once, by kind and part of the report", "statement": "After the run, the archive of each kind of group and part of a report has exactly the texts of these groups, in the order of the input, and the error archive has exactly the reports with errors, each after the name of its error; the archives are in different files.", "quantifier": "all collections, all contents of the input file, all kinds and parts, all reports", "why_tests_cant": "The archives grow with the input without bound, and any byte may be in it.", "anchors": [{"file": "performance/main.cpp", "symbol": "Archiver::addResult"}, {"file": "performance/main.cpp", "symbol": "Archiver::addErrorReport"}, {"file": "performance/main.cpp", "symbol": "ArchiveToFile::add"}, {"file": "performance/main.cpp", "symbol": "ParserPerformanceTester::test"}]}
{"id": "C91", "title": "The performance program ends without undefined behaviour", "statement": "For every input file with one METAR or TAF per line and for every clock the program ends normally; a file that cannot be read is reported by an exception.", "quantifier": "all contents of the input file, all clocks, all collections, all command lines", "why_tests_cant": "A clock too coarse for the input or a line of a certain form need not occur in a test.", "anchors": [{"file": "performance/main.cpp", "symbol": "main"}, {"file": "performance/main.cpp", "symbol": "PerformanceStats::print"}, {"file": "performance/main.cpp", "symbol": "ArchiveToFile::add"}, {"file": "performance/main.cpp", "symbol": "ParserPerformanceTester::test"}]}
{"id": "C92", "title": "Everything that is not recognised is listed", "statement": "The list of groups not recognised has each text once, with the number of its occurrences in the input (for the collection: in one repetition), the most frequent first; the list of errors has every report with an error and their number.", "quantifier": "all collections, all contents of the input file", "why_tests_cant": "The number of records is unbounded, and archives in files are read back in batches of 1000.", "anchors": [{"file": "performance/main.cpp", "symbol": "FrequencyStats"}, {"file": "performance/main.cpp", "symbol": "Archiver::printErrorReports"}, {"file": "performance/main.cpp", "symbol": "main"}]}
{"id": "C93", "title": "Every kind of group is tested", "statement": "For every kind of recognised group the program tests every archived group again and prints their number, the time used and the rate.", "quantifier": "all collections, all contents of the input file, all kinds of groups, all clocks", "why_tests_cant": "Which kinds occur depends on the input; the numbers are unbounded.", "anchors": [{"file": "performance/main.cpp", "symbol": "GroupPerformanceTester::test"}, {"file": "performance/main.cpp", "symbol": "printGroupStats"}]}
{"id": "C94", "title": "Options leave out their section and change nothing else", "statement": "Each of --noerror, --nounkn, --nogroups, --nosize leaves out its section of the output and changes nothing else, wherever it stands; --help shows the help and does nothing else; a last argument that is not an option is the input file; other arguments are ignored.", "quantifier": "all command lines, all inputs", "why_tests_cant": "The number of command lines is unbounded, and the sections share statistics and archives.", "anchors": [{"file": "performance/main.cpp", "symbol": "setCommandLineParameters"}, {"file": "performance/main.cpp", "symbol": "main"}]}
{"id": "C95", "title": "The figures are those of the measurements", "statement": "The printed numbers of reports and groups are those of the input, the printed time is the sum of the measured times, and the rate is their quotient per second, rounded down.", "quantifier": "all inputs and clocks for which the sums are below 2^64", "why_tests_cant": "Sums over an unbounded number of batches.", "anchors": [{"file": "performance/main.cpp", "symbol": "PerformanceStats::add"}, {"file": "performance/main.cpp", "symbol": "PerformanceStats::print"}, {"file": "performance/main.cpp", "symbol": "main"}]}
{"id": "C96", "title": "The exported collection is the collection", "statement": "With --expint the program writes each METAR and then each TAF of the collection to a file, one in a line, and nothing else; given as input file, that file has the reports of the collection, each once.", "quantifier": "all collections of one-line reports, all command lines with --expint", "why_tests_cant": "Must hold for whatever collection is compiled in.", "anchors": [{"file": "performance/main.cpp", "symbol": "main"}, {"file": "performance/main.cpp", "symbol": "BatchFromTestdataReal"}]}
{"id": "C97", "title": "A link to the explanation page restores it", "statement": "Whoever opens the address the explanation page has after a text was entered sees the same text, the same table and the same address; the address needs no further escaping, and different texts have different addresses.", "quantifier": "all texts of Unicode characters, all histories of loading, start of the program and edits before, both orders of loading the page and starting the program", "why_tests_cant": "Every character of Unicode and every order of events of the browser counts.", "anchors": [{"file": "examples/shellfiles/explain_shell.html", "symbol": "explain"}, {"file": "examples/shellfiles/explain_shell.html", "symbol": "getInputFromHash"}, {"file": "examples/explain.cpp", "symbol": "main"}]}
{"id": "C98", "title": "The table shown explains the text in the box", "statement": "After every edit and after the start of the program, the table of the explanation page is the explanation of the text which is in the box then, whatever happened before.", "quantifier": "all histories of loading, start of the program and edits, all texts", "why_tests_cant": "A table left over from an earlier text shows only after particular histories.", "anchors": [{"file": "examples/shellfiles/explain_shell.html", "symbol": "explain"}, {"file": "examples/shellfiles/explain_shell.html", "symbol": "clearTable"}, {"file": "examples/explain.cpp", "symbol": "explain"}]}
{"id": "C99", "title": "The options marked on the summary page are those in effect", "statement": "Whatever the parameters of the address, exactly the unit in which the weather is shown and the distance for which it is requested are marked; after any sequence of clicks the options in effect are those clicked last, a click on a unit keeps the distance and a click on a distance keeps the unit; of several parameters with one name the last counts.", "quantifier": "all queries of the address, all sequences of clicks on options", "why_tests_cant": "The address can hold any parameters, and the two places which read them must agree for each; sequences of clicks are unbounded.", "anchors": [{"file": "examples/shellfiles/summary_shell.html", "symbol": "findGetParameter"}, {"file": "examples/shellfiles/summary_shell.html", "symbol": "displayUnitOptions"}, {"file": "examples/shellfiles/summary_shell.html", "symbol": "displayDistanceOptions"}, {"file": "examples/shellfiles/summary_shell.html", "symbol": "updateOptions"}, {"file": "examples/shellfiles/summary_shell.html", "symbol": "getPositionSuccess"}, {"file": "examples/shellfiles/summary_shell.html", "symbol": "getAWCweather"}]}
{"id": "C100", "title": "The summary page tells what has become of its requests", "statement": "When the answers with METARs, TAFs and stations have come, the page has the messages of their errors, the number of aerodromes and their items, in whatever order the answers came; before that it says that it is waiting; if the position is not found or a request fails, it says so.", "quantifier": "all orders in which answers arrive, all answers, all failures of requests", "why_tests_cant": "The orders of arrival and the failures of a network cannot be enumerated by tests of the page.", "anchors": [{"file": "examples/shellfiles/summary_shell.html", "symbol": "fetchAndParseXML"}, {"file": "examples/shellfiles/summary_shell.html", "symbol": "getAWCweather"}, {"file": "examples/shellfiles/summary_shell.html", "symbol": "displayErrors"}, {"file": "examples/shellfiles/summary_shell.html", "symbol": "displayAerodromeCount"}, {"file": "examples/shellfiles/summary_shell.html", "symbol": "getPositionSuccess"}, {"file": "examples/shellfiles/summary_shell.html", "symbol": "getPositionFailure"}]}
{"id": "C101", "title": "The summary page tells when a report was released", "statement": "The text of a station has one line that says the local time at which its report was released and how long ago that was, on every device that shows the right local time, even if the time zone set on it is wrong.", "quantifier": "all reports with a release time, all moments at which the page is shown, all time zones and clock settings of devices, all delays of the answers", "why_tests_cant": "Times, time zones and dates of releases are too many, and the wrong answers come at ends of months and changes of time zones only.", "anchors": [{"file": "examples/shellfiles/summary_shell.html", "symbol": "getActualTimeOffset"}, {"file": "examples/shellfiles/summary_shell.html", "symbol": "fetchAndParseXML"}, {"file": "examples/shellfiles/summary_shell.html", "symbol": "currentWeatherToHTML"}, {"file": "examples/shellfiles/summary_shell.html", "symbol": "getAWCweather"}, {"file": "include/metaf.hpp", "symbol": "MetafTime::dateBeforeRef"}, {"file": "examples/summary.cpp", "symbol": "getCurrentWeather"}]}
{"id": "C102", "title": "The distance shown on the summary page is the great-circle distance", "statement": "The distance shown for an aerodrome is the great-circle distance between the position of the device, to half a hundredth of a degree, and the aerodrome, to half a kilometer or half a mile and the ten-thousandth part; no distance is shown for an aerodrome whose position is not known.", "quantifier": "all positions of devices, all positions of aerodromes, both systems of units", "why_tests_cant": "Positions form a continuum, and the formula has special cases for equal and opposite points.", "anchors": [{"file": "examples/shellfiles/summary_shell.html", "symbol": "distanceKm"}, {"file": "examples/shellfiles/summary_shell.html", "symbol": "displayWeatherData"}, {"file": "examples/shellfiles/summary_shell.html", "symbol": "AWCdataToMap"}, {"file": "examples/shellfiles/summary_shell.html", "symbol": "getPositionSuccess"}]}
{"id": "C103", "title": "The summary page requests the weather around the position within the chosen distance", "statement": "Whatever the options in the address of the page, the data server reads from the requests: the last METAR reports of three hours, the last TAF reports of 24 hours and the stations, each within the distance in effect of the position of the device, to a hundredth of a degree, and nothing else.", "quantifier": "all queries of the page, all positions, all distances", "why_tests_cant": "The distance comes from the address of the page and goes into the addresses of the requests without encoding; a character with a meaning there would change the request.", "anchors": [{"file": "examples/shellfiles/summary_shell.html", "symbol": "getAWCweather"}, {"file": "examples/shellfiles/summary_shell.html", "symbol": "getPositionSuccess"}, {"file": "examples/shellfiles/summary_shell.html", "symbol": "findGetParameter"}]}
{"id": "C104", "title": "In a browser the performance program measures the collection and shows nothing else", "statement": "Compiled for a browser, the program ignores its command line and reads no file: it parses the collection 300 times, shows the size of the test set and the time, number and rate of reports and of groups, and nothing else; it keeps no reports and groups and writes no file; it always ends.", "quantifier": "all command lines, all collections, all readings of the clock", "why_tests_cant": "Tests are compiled for the machine which runs them; the collection, the clock and the command line have unboundedly many values.", "anchors": [{"file": "performance/main.cpp", "symbol": "setWasmParameters"}, {"file": "performance/main.cpp", "symbol": "main"}, {"file": "performance/main.cpp", "symbol": "ParserPerformanceTester::test"}]}
