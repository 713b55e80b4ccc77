{"claims": [
 {"property": "C01", "status": "proved", "theorems": ["C01_parse_returns", "C01_every_group_parser_returns", "C01_every_append_returns", "C01_result_groups_are_reachable"], "note": "For every byte string, limit and signedness of char; also for every group parser on any text and every append to any reachable group."},
 {"property": "C02", "status": "proved", "theorems": ["C02_groups_of_a_report", "C02_nothing_lost", "C02_shape_of_groups", "C02_parser_handles_exactly_these_groups"], "note": "For every byte string and both signednesses of char; the parser is shown to see the report only through these groups."},
 {"property": "C03", "status": "proved", "theorems": ["C03_text_after_end_indicator_ignored"], "note": "For every report, suffix and limit."},
 {"property": "C04", "status": "proved", "theorems": ["C04_delimiters_do_not_matter", "C04_groups_are_read_back", "C04_same_groups_same_result"], "note": "For every list of groups and delimiter strings."},
 {"property": "C05", "status": "proved", "theorems": ["C05_single_spaces", "C05_raw_text_conserved"], "note": "For every byte string and limit; consumed groups are a prefix of the groups of the report, all of them when there is no error."},
 {"property": "C06", "status": "partial", "theorems": ["C06_one_group_per_word_refuted", "C06_group_without_text_precedes_unknown_partial", "C06_group_without_text_kinds_partial", "C06_result_at_most_twice_the_report_partial"], "note": "The property as documented is false of the code: C06_one_group_per_word_refuted gives a report whose result has a group without text and more groups than the report. Proved instead for every input: such a group is always followed by an unknown group with text, and there are at most twice as many groups as consumed words."},
 {"property": "C07", "status": "proved", "theorems": ["C07_limit_bounds_work", "C07_too_large_iff_limit_reached", "C07_result_independent_of_limit", "C07_higher_limit_same_result", "C07_limit_bounds_result"], "note": "For every byte string and limit. The exact count includes that the first group after the time of an untyped METAR is counted twice; the result has at most 2*max(1,limit) groups."},
 {"property": "C08", "status": "proved", "theorems": ["C08_unknown_groups_merged"], "note": "For every byte string and limit."},
 {"property": "C09", "status": "proved", "theorems": ["C09_no_error_iff_well_formed", "C09_type_of_well_formed", "C09_grammar_is_unambiguous"], "note": "For every byte string and limit; the grammar is a separate inductive specification over the labels of the result groups, proved equal to the parser's automaton and unambiguous."},
 {"property": "C10", "status": "proved", "theorems": ["C10_error_names_first_violation", "C10_error_determined_by_labels", "C10_rest_is_ignored", "C10_empty_report"], "note": "For every byte string and limit, with a table of what each error code means; the rest of the report is ignored and the error depends on the labels only."},
 {"property": "C100", "status": "partial", "theorems": ["C100_shown", "C100_waiting", "C100_position", "C100_failure_refuted", "C100_message_refuted"], "note": "Refuted for failing requests: the page goes on saying that it is waiting. Proved for all orders of arrival of answers."},
 {"property": "C101", "status": "partial", "theorems": ["C101_release_partial", "C101_calendar", "C101_month_refuted", "C101_zone_change_refuted", "C101_no_date_refuted"], "note": "Proved for devices that show the right local time, with a constant time zone, right or wrong, when the day of the release has begun where the device is and the answer has a readable date that is less than half a minute off (C101_release_partial); the browser's calendar is the Gregorian one (C101_calendar). Refuted: at the end of a month west of Greenwich, near a change of the time zone, and for answers without a readable date."},
 {"property": "C102", "status": "partial", "theorems": ["C102_distance_partial", "C102_great_circle", "C102_position", "C102_unknown_refuted"], "note": "Proved with real numbers in place of JavaScript's: errors of rounding are left out. Refuted for aerodromes without position, which are shown as NaN km away."},
 {"property": "C103", "status": "partial", "theorems": ["C103_requests_partial", "C103_parameter", "C103_one_reading", "C103_plus_refuted"], "note": "Proved for every query, position and distance whose text has no plus sign; refuted for distances from 1e21 on."},
 {"property": "C104", "status": "partial", "theorems": ["C104_output_partial", "C104_returns_partial", "C104_line_ignored_partial", "C104_no_time_refuted"], "note": "Proved for every command line whose last argument is not empty, every collection and every clock which advances; refuted for a clock which does not advance (and, in C94, for an empty last argument)."},
 {"property": "C11", "status": "proved", "theorems": ["C11_type_detected", "C11_type_detected_any_limit", "C11_unknown_type_without_error"], "note": "type as a function of the first three words; every limit covered"},
 {"property": "C12", "status": "proved", "theorems": ["C12_parts_in_order"], "note": ""},
 {"property": "C13", "status": "proved", "theorems": ["C13_nil_has_no_content", "C13_cancelled_has_no_content"], "note": ""},
 {"property": "C14", "status": "proved", "theorems": ["C14_keyword_attributes", "C14_keyword_groups", "C14_correctional", "C14_correction_number", "C14_location_and_report_time", "C14_report_time_text"], "note": ""},
 {"property": "C15", "status": "partial", "theorems": ["C15_metar_time_span_refuted", "C15_time_span_of_first_group_partial", "C15_taf_time_span", "C15_header_time_span_text"], "note": "refuted for METAR (a body group HHMM/HHMM sets the time span); the TAF half and the exact rule are proved"},
 {"property": "C16", "status": "proved", "theorems": ["C16_keyword_not_appended", "C16_report"], "note": "For every group value, reachable or not; and for the texts of all groups of a result."},
 {"property": "C17", "status": "partial", "theorems": ["C17_complete_partial", "C17_beginnings_are_unknown", "C17_refuted"], "note": "Every group of a result is complete except four fixed texts (PROB30, PROB40, WSHFT, SNINCR) and a single forecast temperature without label; these are refuted. Groups without text are the subject of C06."},
 {"property": "C18", "status": "partial", "theorems": ["C18_values_kept_partial", "C18_validity_kept_partial", "C18_validity_refuted"], "note": "All values are kept, for every reachable group. isValid() of visibility and vicinity groups can change from false to true (refuted); for all other groups it is kept."},
 {"property": "C19", "status": "proved", "theorems": ["C19_ascii_reports_do_not_depend_on_char_signedness", "C19_other_bytes_do_depend_on_it"], "note": "Equality for 7-bit reports; a witness shows the platforms differ on bytes above 127."},
 {"property": "C20", "status": "proved", "theorems": ["C20_strToUint", "C20_exact_up_to_nine_digits", "C20_ten_digits_wrap_refuted"], "note": "Complete characterisation for every string, position and digit count; a witness shows the wrap-around at ten digits."},
 {"property": "C21", "status": "partial", "theorems": ["C21_temperature", "C21_remark_temperature", "C21_runway", "C21_runway_short", "C21_time", "C21_day_hour", "C21_speed", "C21_speed_refuted", "C21_meters", "C21_height", "C21_runway_visual_range", "C21_layer", "C21_kilometers", "C21_miles", "C21_remark_miles", "C21_miles_refuted", "C21_degrees", "C21_pressure", "C21_forecast_pressure", "C21_sea_level_pressure", "C21_ground_pressure", "C21_pressure_tendency", "C21_rainfall", "C21_rainfall_refuted", "C21_deposits", "C21_deposits_refuted", "C21_remark_precipitation", "C21_snow_increasing", "C21_friction", "C21_friction_refuted", "C21_wave", "C21_wave_refuted", "C21_cloud_type", "C21_cloud_type_format", "C21_cloud_type_refuted"], "note": "Proved for each parser: it accepts exactly the documented expression, or exactly that plus/minus the texts the theorem names. The plain equivalence is refuted for speed (empty text), miles (fractions with zeroes), rainfall, deposits, friction and waves (not-reported texts and reserved codes) and cloud types (taken from a list)."},
 {"property": "C22", "status": "proved", "theorems": ["C22_time", "C22_day_and_hour", "C22_valid"], "note": ""},
 {"property": "C23", "status": "proved", "theorems": ["C23_latest_date", "C23_no_day"], "note": ""},
 {"property": "C24", "status": "partial", "theorems": ["C24_three_hourly_partial", "C24_six_hourly_partial", "C24_exclusive", "C24_midnight_at_end_of_day_refuted"], "note": "The windows are proved for hours 0 to 23; the window is half-open, a report exactly one hour after is outside. Refuted for 24:00, midnight at the end of the day, which is valid but not 6-hourly."},
 {"property": "C25", "status": "partial", "theorems": ["C25_temperature", "C25_temperature_in_remarks", "C25_minus_zero_refuted", "C25_units"], "note": "Proved, except that minus zero in the remarks (1000) does not set isFreezing (refuted)."},
 {"property": "C26", "status": "proved", "theorems": ["C26_miles", "C26_whole_miles_and_fraction", "C26_whole_miles_and_fraction_accepted"], "note": ""},
 {"property": "C27", "status": "proved", "theorems": ["C27_miles", "C27_exact", "C27_not_reported"], "note": "Flocq's rounding results carry the model's SpecFloat operations to real numbers; the value returned is the documented presentation of the distance for every stored number."},
 {"property": "C28", "status": "proved", "theorems": ["C28_octant", "C28_above_360", "C28_true_directions", "C28_names", "C28_names_accepted"], "note": ""},
 {"property": "C29", "status": "partial", "theorems": ["C29_sector", "C29_sector_shape", "C29_unknown_never_ends_refuted"], "note": "Proved for all octants. Refuted when one end is UNKNOWN and the other an octant: the loop never ends, whatever the number of iterations."},
 {"property": "C30", "status": "proved", "theorems": ["C30_lightning", "C30_vicinity"], "note": "All reachable lightning and vicinity groups; the two areas are enumerated, the histories are covered by an invariant."},
 {"property": "C31", "status": "proved", "theorems": ["C31_packing", "C31_packing_longer"], "note": ""},
 {"property": "C32", "status": "proved", "theorems": ["C32_only_well_formed", "C32_at_most_three_distinct", "C32_all_well_formed", "C32_events", "C32_in_the_result"], "note": ""},
 {"property": "C33", "status": "proved", "theorems": ["C33_isValid_of_weather_returns", "C33_isValid_of_groups_returns"], "note": "For every phenomenon the interface gives out, and for isValid() of every reachable group. A witness shows that an unobtainable phenomenon does read out of bounds."},
 {"property": "C34", "status": "proved", "theorems": ["C34_weather_group_capacity", "C34_weather_phenomena_capacity", "C34_cloud_types_group_capacity"], "note": "Sizes bounded for every reachable group; writes beyond capacity are an outcome of the model that C01 excludes. LightningGroup flags are booleans."},
 {"property": "C35", "status": "proved", "theorems": ["C35_pressure", "C35_forecast_pressure", "C35_sea_level_pressure", "C35_ground_pressure", "C35_pressure_tendency"], "note": ""},
 {"property": "C36", "status": "proved", "theorems": ["C36_rainfall", "C36_runway_deposits", "C36_amounts_in_remarks", "C36_snow_increasing"], "note": ""},
 {"property": "C37", "status": "proved", "theorems": ["C37_state_follows_height", "C37_state_codes", "C37_decoded"], "note": ""},
 {"property": "C38", "status": "proved", "theorems": ["C38_none", "C38_braking_follows_friction", "C38_decoded", "C38_braking_codes"], "note": ""},
 {"property": "C39", "status": "proved", "theorems": ["C39_fields_match_type", "C39_fields_match_type_report", "C39_invalidated_refuted"], "note": "invariant over everything built from words, and for the groups of every report; C39_invalidated_refuted: an object which append declared invalid (SFC VIS 2 1/2V2) breaks it, the parser discards such objects"},
 {"property": "C40", "status": "proved", "theorems": ["C40_combinations", "C40_report", "C40_times_kept", "C40_refused"], "note": "Exactly the listed word sequences combine, for every group however it was assembled and for every trend group of a report."},
 {"property": "C41", "status": "proved", "theorems": ["C41_words", "C41_report", "C41_unlabelled_pair", "C41_refused"], "note": "Exactly the listed word sequences combine, for every group however it was assembled and for every such group of a report."},
 {"property": "C42", "status": "proved", "theorems": ["C42_visit_calls_exactly_one_method", "C42_visit_returns_what_the_method_returned", "C42_recorded_call"], "note": "For every visitor, group, part and raw string."},
 {"property": "C43", "status": "proved", "theorems": ["C43_speed_reported", "C43_distance_reported", "C43_pressure_reported", "C43_precipitation_reported", "C43_temperature_reported", "C43_wave_height_reported", "C43_speed_same_unit", "C43_distance_same_unit", "C43_pressure_same_unit", "C43_precipitation_same_unit", "C43_temperature_same_unit", "C43_wave_height_same_unit", "C43_speed_converted", "C43_distance_converted", "C43_pressure_converted", "C43_precipitation_converted", "C43_wave_height_converted", "C43_temperature_converted", "C43_speed_monotone", "C43_distance_monotone", "C43_pressure_monotone", "C43_precipitation_monotone", "C43_wave_height_monotone", "C43_temperature_monotone"], "note": "Reportedness, same unit, accuracy against the exact definition of each unit, and monotonicity, for all quantities that have toUnit."},
 {"property": "C44", "status": "partial", "theorems": ["C44_heat_index", "C44_heat_index_not_reported", "C44_not_a_number_refuted", "C44_relative_humidity", "C44_relative_humidity_not_reported", "C44_heat_index_of_dew_point", "C44_wind_chill", "C44_wind_chill_not_reported", "C44_heat_index_of_report", "C44_wind_chill_of_report"], "note": "The validity ranges are exact and nothing undefined happens for any finite humidity; a humidity that is not a number is refuted (conversion of NaN to int). pow is a parameter of which only moderate finite results are assumed."},
 {"property": "C45", "status": "proved", "theorems": ["C45_reparse_gives_another_kind", "C45_invalidated_group_changes_kind"], "note": "For every text, part, metadata and previous group; and for the parser's handling of an invalidated last group, where the re-parsed group may be invalidated again."},
 {"property": "C46", "status": "proved", "theorems": ["C46_location_recognised", "C46_location_groups"], "note": ""},
 {"property": "C47", "status": "proved", "theorems": ["C47_built_from_its_words"], "note": ""},
 {"property": "C48", "status": "proved", "theorems": ["C48_lightning", "C48_frequency_word", "C48_vicinity", "C48_lightning_report", "C48_vicinity_report"], "note": "Word sequences of lightning and vicinity groups in both directions, and for the groups of every report."},
 {"property": "C49", "status": "proved", "theorems": ["C49_meters", "C49_height", "C49_runway_visual_range", "C49_layer", "C49_kilometers", "C49_speed", "C49_speed_unit", "C49_runway", "C49_degrees"], "note": "equivalence of each value parser with the relation between texts and values in SpecTexts.v"},
 {"property": "C50", "status": "proved", "theorems": ["C50_wind", "C50_wind_report"], "note": "word grammar of wind groups with their meaning in SpecWind.v, both directions, and for the groups of every report with the report time of its metadata"},
 {"property": "C51", "status": "proved", "theorems": ["C51_visibility", "C51_visibility_report"], "note": "word grammar of visibility groups with their meaning in SpecVisibility.v, both directions, and for the groups of every report"},
 {"property": "C52", "status": "proved", "theorems": ["C52_clouds", "C52_low_middle_high", "C52_cloud_types", "C52_clouds_report", "C52_low_middle_high_report", "C52_cloud_types_report"], "note": "word grammars of cloud, cloud type and low/middle/high cloud groups with their meaning in SpecClouds.v, both directions, and for the groups of every report"},
 {"property": "C53", "status": "proved", "theorems": ["C53_temperature", "C53_pressure", "C53_tendency", "C53_sea_surface", "C53_runway_state", "C53_temperature_report", "C53_pressure_report", "C53_tendency_report", "C53_sea_surface_report", "C53_runway_state_report"], "note": "word grammars of temperature, pressure, pressure tendency, sea surface and runway state groups with their meaning in SpecReadings.v, both directions, and for the groups of every report; binary floating-point values are stated up to rounding"},
 {"property": "C54", "status": "proved", "theorems": ["C54_precipitation", "C54_precipitation_report", "C54_layer_forecast", "C54_layer_forecast_report", "C54_misc", "C54_misc_report"], "note": "Both directions for each kind of group, and for every group of every report; precipitation types with the time of the report. Density altitudes above 2^24 feet are only said to be present."},
 {"property": "C55", "status": "proved", "theorems": ["C55_one_kind", "C55_any_order", "C55_invalidated", "C55_shared", "C55_shared_order"], "note": "All 210 pairs of kinds in each part; the five exceptions are characterised exactly"},
 {"property": "C56", "status": "proved", "theorems": ["C56_read", "C56_read_no_type", "C56_one_way"], "note": "METAR, SPECI and TAF, with and without type word and remarks; reports with NIL or CNL have no body and are not part of the statement"},
 {"property": "C57", "status": "proved", "theorems": ["C57_valid", "C57_refuted", "C57_cloud_types_refuted", "C57_minmax_refuted"], "note": "All kinds of groups; the exception (wind of 999 units without gusts) is part of the statement. Three statements of the documentation are refuted beside it."},
 {"property": "C58", "status": "proved", "theorems": ["C58_weather", "C58_weather_report", "C58_events"], "note": "Both directions, and for the weather groups of every report with the report time of its metadata"},
 {"property": "C59", "status": "proved", "theorems": ["C59_report", "C59_no_error", "C59_one_way"], "note": "Both directions, for all texts and limits, and uniqueness of the reading. Which words make up a group is given by the assembly relation of C56, whose meaning for each kind is the subject of C46-C58."},
 {"property": "C60", "status": "proved", "theorems": ["C60_told", "C60_read", "C60_no_error", "C60_one_way"], "note": "Both directions and uniqueness; kinds, texts and parts of the report are unique, the values up to the rounding which the relations of C53 and C54 leave open"},
 {"property": "C61", "status": "proved", "theorems": ["C61_summary_returns"], "note": "for all texts, dates and both systems of units"},
 {"property": "C62", "status": "partial", "theorems": ["C62_values_partial", "C62_forecast_surface_wind_refuted", "C62_inches_exact_refuted"], "note": "proved for METAR; for TAF any wind and any visibility counts, not only surface wind and prevailing visibility (refuted by wind shear groups); inches of mercury with an error of 0.0025 %, exactness refuted"},
 {"property": "C63", "status": "partial", "theorems": ["C63_symbols_partial", "C63_symbols_refuted", "C63_funnel_cloud_refuted"], "note": "all phenomena except ice pellets without showers and funnel clouds in the vicinity, which are shown wrongly (refuted); from TAF also weather events count"},
 {"property": "C64", "status": "partial", "theorems": ["C64_sky_specified", "C64_sky_greatest_partial", "C64_sky_greatest_refuted", "C64_variable_amount_refuted"], "note": "never cloudier than reported, unspecified exactly if nothing is reported; the greatest amount if layers are in order and not variable; refuted otherwise"},
 {"property": "C65", "status": "partial", "theorems": ["C65_explain_outcome_partial", "C65_explain_returns_partial", "C65_explain_returns_refuted"], "note": "no undefined behaviour, no endless loop, one way to throw, characterised exactly; a report with R///////V throws (refuted)"},
 {"property": "C66", "status": "partial", "theorems": ["C66_table_rows", "C66_no_markup_partial", "C66_no_markup_refuted"], "note": "rows proved for all texts; no markup if the report has no '<'; markup in the report gets into the table (refuted)"},
 {"property": "C67", "status": "proved", "theorems": ["C67_no_unable"], "note": "for all texts without a bracket of their own"},
 {"property": "C68", "status": "partial", "theorems": ["C68_decimals_partial", "C68_temperature_partial", "C68_pressure_partial", "C68_precipitation_partial", "C68_wave_height_partial", "C68_friction_partial", "C68_nearest_refuted"], "note": "cut off instead of rounded, within one unit of the last digit, for all floats and 1 to 6 decimals; rounding to the nearest refuted"},
 {"property": "C69", "status": "proved", "theorems": ["C69_validity_told"], "note": "all groups"},
 {"property": "C70", "status": "partial", "theorems": ["C70_time_shown", "C70_runway_shown", "C70_speed_shown", "C70_direction_shown", "C70_distance_shown", "C70_miles_shown_partial", "C70_miles_shown_refuted", "C70_density_altitude_refuted", "C70_distance_units", "C70_miles_fraction_partial", "C70_six_digits", "C70_whole_numbers", "C70_no_sunshine"], "note": "times, runways, speeds, directions, distances in all units, numbers of six digits; of miles those up to 15 and multiples of 5 above (refuted for others); density altitudes from a million feet are shown with an exponent (refuted)"},
 {"property": "C71", "status": "partial", "theorems": ["C71_texts_differ", "C71_weather_texts_differ", "C71_cloud_type_texts_differ_partial", "C71_cloud_type_refuted"], "note": "all tables but one; the text for a cloud type which is not reported is that of cumulonimbus (refuted)"},
 {"property": "C72", "status": "partial", "theorems": ["C72_values_told_partial", "C72_clear_and_dry_refuted", "C72_not_operational_refuted", "C72_trend_refuted", "C72_sector_refuted", "C72_event_time_refuted"], "note": "all values of all groups with text, except the five kinds of values which are left out (refuted)"},
 {"property": "C73", "status": "partial", "theorems": ["C73_degrees_named", "C73_point_named", "C73_kind_told_partial", "C73_kind_refuted", "C73_values_told", "C73_cloud_type_told_partial", "C73_cloud_type_refuted", "C73_weather_told"], "note": "Proved for all types of groups but one and all values of enumerations but one: altocumulus castellanus is told as altocumulus (C73_kind_refuted), a cloud type not reported as cumulonimbus (C73_cloud_type_refuted)."},
 {"property": "C74", "status": "proved", "theorems": ["C74_texts_give_the_result"], "note": "For every text and every limit."},
 {"property": "C75", "status": "proved", "theorems": ["C75_more_words", "C75_error_stops", "C75_two_groups_change"], "note": "At most the last two groups with text; groups without text (see C06) are not counted."},
 {"property": "C76", "status": "proved", "theorems": ["C76_listing", "C76_line_tells_kind_and_text", "C76_error_told", "C76_type_told"], "note": "The report of the program is an argument of the model."},
 {"property": "C77", "status": "partial", "theorems": ["C77_waiting_is_not_valid_partial", "C77_waiting_is_not_valid_refuted"], "note": "Proved for all kinds of groups except clouds and lightning, which are valid while they wait (refuted)."},
 {"property": "C78", "status": "partial", "theorems": ["C78_alphabet_partial", "C78_alphabet_refuted"], "note": "Proved for all words except those which begin with LTG, after which anything may follow (refuted)."},
 {"property": "C79", "status": "proved", "theorems": ["C79_same_words_same_group"], "note": ""},
 {"property": "C80", "status": "proved", "theorems": ["C80_limit_cuts", "C80_words_cut"], "note": ""},
 {"property": "C81", "status": "proved", "theorems": ["C81_foreign_word"], "note": ""},
 {"property": "C82", "status": "partial", "theorems": ["C82_text_partial", "C82_lines_unique", "C82_wind_partial", "C82_wind_speed_refuted", "C82_variable_refuted"], "note": "All lines but the wind, and the wind if it has a direction or is variable. Refuted: a wind without direction has no line; no wind at all is called variable."},
 {"property": "C83", "status": "proved", "theorems": ["C83_weather_words", "C83_weather_distinct", "C83_cloud_words"], "note": ""},
 {"property": "C84", "status": "partial", "theorems": ["C84_widget_partial", "C84_pressure_refuted", "C84_visibility_refuted", "C84_direction_refuted"], "note": "All parts of the widget. Refuted: missing pressure (inches) and visibility (km) are shown as 0, a missing direction as an arrow turned by null degrees."},
 {"property": "C85", "status": "partial", "theorems": ["C85_icon", "C85_icon_unique", "C85_order_irrelevant", "C85_unknown_partial", "C85_unknown_refuted"], "note": "Rules, independence of order, and when the icon for missing data is shown. Refuted: fourteen weather symbols have that icon too."},
 {"property": "C86", "status": "proved", "theorems": ["C86_stations", "C86_order", "C86_data"], "note": ""},
 {"property": "C87", "status": "partial", "theorems": ["C87_displayed_partial", "C87_first_partial", "C87_hidden_refuted", "C87_name_refuted"], "note": "All stations if each element has the text of its report, and those before the first one without. Refuted: the later ones are not displayed; a missing name is displayed as undefined."},
 {"property": "C88", "status": "proved", "theorems": ["C88_summary", "C88_explanation"], "note": ""},
 {"property": "C89", "status": "partial", "theorems": ["C89_progress", "C89_file_partial", "C89_last_line_refuted"], "note": "Refuted as stated: the lines of a file after the last full batch of 64000 are not processed. Proved: the progress line for the reports used; the collection is used completely, a file if it has fewer than 64000 lines or a multiple of that."},
 {"property": "C90", "status": "proved", "theorems": ["C90_archives", "C90_files", "C90_error_file"], "note": "For all reports which the program uses."},
 {"property": "C91", "status": "partial", "theorems": ["C91_returns_partial", "C91_missing_file", "C91_blank_line_refuted", "C91_no_line_end_refuted", "C91_clock_refuted"], "note": "Refuted for blank lines, a file without line end and a measured time of 0. Proved: it ends normally in all other cases (measured times at least 1 and without overflow)."},
 {"property": "C92", "status": "partial", "theorems": ["C92_collection", "C92_file_partial", "C92_file_refuted", "C92_errors_partial", "C92_errors_refuted"], "note": "Refuted for files with 1001 unrecognised groups or 501 reports with errors. Proved for the collection, and for files with fewer than 1000 records (or multiples of 1000)."},
 {"property": "C93", "status": "partial", "theorems": ["C93_kinds_partial", "C93_weather", "C93_weather_refuted"], "note": "Refuted: WeatherGroup is never tested. Proved for all other kinds; for files, of the archived groups those of full batches of 1000 are tested, or all if fewer."},
 {"property": "C94", "status": "partial", "theorems": ["C94_sections", "C94_help", "C94_inputs_partial", "C94_hyphen_refuted", "C94_empty_refuted", "C94_ignored", "C94_nostats_refuted"], "note": "Refuted for a hyphen as second character of the last argument, an empty last argument, and --nostats. Proved for all other command lines."},
 {"property": "C95", "status": "proved", "theorems": ["C95_figures"], "note": "As long as the sums are below 2^64."},
 {"property": "C96", "status": "proved", "theorems": ["C96_export", "C96_used"], "note": "For collections without line ends in the reports."},
 {"property": "C97", "status": "partial", "theorems": ["C97_link_partial", "C97_address", "C97_distinct", "C97_empty_refuted", "C97_order_refuted"], "note": "Refuted for the empty text and for a program started before the page is loaded. Proved for all other texts and all histories."},
 {"property": "C98", "status": "partial", "theorems": ["C98_table_partial", "C98_box", "C98_no_text", "C98_table_refuted", "C98_returns_partial", "C98_returns_refuted"], "note": "Refuted for a text with half a surrogate pair, and for a report that makes explain throw; a text with a zero is explained as far as the zero. Proved for all other texts and all histories."},
 {"property": "C99", "status": "partial", "theorems": ["C99_marked_partial", "C99_clicks_partial", "C99_default", "C99_unit", "C99_distance", "C99_marked_refuted"], "note": "Refuted for a query with a malformed percent sequence. Proved for all other queries and all sequences of clicks."}
]}
