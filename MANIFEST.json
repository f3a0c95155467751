{
 "claims": [
  {
   "property": "C01",
   "status": "proved",
   "theorems": [
    "C01_echo_and_classification"
   ],
   "note": ""
  },
  {
   "property": "C02",
   "status": "proved",
   "theorems": [
    "C02_parse_implies_valid",
    "C02_invalid_is_unrecognized"
   ],
   "note": ""
  },
  {
   "property": "C03",
   "status": "partial",
   "theorems": [
    "C03_named_exactly_partial",
    "C03_valid_exactly_partial",
    "C03_level_partial",
    "C03_refuted",
    "C03_lower_case_refuted"
   ],
   "note": "False as stated (\"1985 garbage\" and \"201x\" are valid and not named, see the _refuted theorems). The _partial theorems give the exact set of valid strings and the exact set of named strings."
  },
  {
   "property": "C04",
   "status": "partial",
   "theorems": [
    "C04_others_partial",
    "C04_significant_partial",
    "C04_exponential_partial",
    "C04_exponential_decimal_partial",
    "C04_significant_exponential_partial",
    "C04_significant_letter",
    "C04_refuted",
    "C04_exponential_refuted"
   ],
   "note": "False: significant digits with a count larger than the year text panic (1950S5), and exponential years from 2^2147483647 on panic (_refuted). Proved: no other string panics; the exact condition for significant digits of every written year; exponential years do not panic up to the largest 64 bit number below 2^2147483647 and do from there on, until the exponent is out of range (in decimal: exponents up to 646456992 less the digits of the mantissa, and from 646456993). C69_panic gives the strings that panic exactly, but for a borderline strip. Not decided: the last 2^-64 below the limit, and significant digits of exponents below 64 whose value needs 63 bits or more."
  },
  {
   "property": "C05",
   "status": "proved",
   "theorems": [
    "C05_complete_date"
   ],
   "note": ""
  },
  {
   "property": "C06",
   "status": "proved",
   "theorems": [
    "C06_year_month"
   ],
   "note": ""
  },
  {
   "property": "C07",
   "status": "proved",
   "theorems": [
    "C07_year"
   ],
   "note": ""
  },
  {
   "property": "C08",
   "status": "proved",
   "theorems": [
    "C08_missing_day"
   ],
   "note": ""
  },
  {
   "property": "C09",
   "status": "proved",
   "theorems": [
    "C09_date_and_time",
    "C09_only_those"
   ],
   "note": "Offsets are those time.Parse takes: hours up to 24, minutes up to 60. C09_only_those shows that nothing else with a time of day parses."
  },
  {
   "property": "C10",
   "status": "partial",
   "theorems": [
    "C10_date_and_time_bce_partial",
    "C10_mirror_partial",
    "C10_date_and_time_bce_refuted"
   ],
   "note": "False when the offset carries the time into another year (see the _refuted theorem); proved otherwise, and the value returned is stated for every offset."
  },
  {
   "property": "C11",
   "status": "proved",
   "theorems": [
    "C11_interval",
    "C11_interval_rejected"
   ],
   "note": ""
  },
  {
   "property": "C12",
   "status": "proved",
   "theorems": [
    "C12_extended_start"
   ],
   "note": ""
  },
  {
   "property": "C13",
   "status": "partial",
   "theorems": [
    "C13_extended_end_year_partial",
    "C13_extended_end_direct_partial",
    "C13_extended_end_lost_partial",
    "C13_refuted"
   ],
   "note": "ParseString takes a date with a month followed by /.. or / for a season and loses the open end (_refuted, and for all such dates C13_extended_end_lost_partial). Proved: ParseString for years, and ParseExtendedIntervalEnd for every date."
  },
  {
   "property": "C14",
   "status": "partial",
   "theorems": [
    "C14_qualified_year_partial",
    "C14_qualified_direct_partial",
    "C14_qualified_lost_partial",
    "C14_refuted"
   ],
   "note": "ParseString takes a qualified date with a month for a season and loses the flags (_refuted, and for all such dates C14_qualified_lost_partial). Proved: ParseString for years, and ParseQualifiedDate for every date."
  },
  {
   "property": "C15",
   "status": "proved",
   "theorems": [
    "C15_group",
    "C15_group_string"
   ],
   "note": ""
  },
  {
   "property": "C16",
   "status": "proved",
   "theorems": [
    "C16_individual",
    "C16_individual_string"
   ],
   "note": ""
  },
  {
   "property": "C17",
   "status": "proved",
   "theorems": [
    "C17_decade",
    "C17_century",
    "C17_millennium",
    "C17_months_of_year",
    "C17_days_of_year",
    "C17_days_of_month",
    "C17_days_of_month_direct"
   ],
   "note": ""
  },
  {
   "property": "C18",
   "status": "partial",
   "theorems": [
    "C18_covers_partial",
    "C18_interval_partial",
    "C18_refuted"
   ],
   "note": "False for months written 0X, which are read as October to December (_refuted); proved for every other mask, alone or as an end of an interval."
  },
  {
   "property": "C19",
   "status": "partial",
   "theorems": [
    "C19_season_code_partial",
    "C19_season_words_partial",
    "C19_refuted",
    "C19_negative_refuted"
   ],
   "note": "False for the winter of 9999 and for years -999..-1 (see the _refuted theorems); proved for all years whose own and following year are rendered with four digits, for codes and for words in any letter case and spacing."
  },
  {
   "property": "C20",
   "status": "partial",
   "theorems": [
    "C20_grouping_partial",
    "C20_refuted"
   ],
   "note": "False for codes 28 and 30 in years 0..998 and 9999, since the following year is written without padding (_refuted); proved for all other years and codes."
  },
  {
   "property": "C21",
   "status": "proved",
   "theorems": [
    "C21_letter_year",
    "C21_unsupported"
   ],
   "note": ""
  },
  {
   "property": "C22",
   "status": "partial",
   "theorems": [
    "C22_year_partial",
    "C22_unsupported_partial",
    "C22_short_partial",
    "C22_large_partial",
    "C22_refuted",
    "C22_short_refuted",
    "C22_wrapped_partial",
    "C22_one_year_partial"
   ],
   "note": "False beyond 63 bits, where the value is taken modulo 2^64, and for years below 1000 (_refuted). Proved: exact for all values below 2^63; exponents from 64 on never give a date; and for every notation of any size exactly which year results: the number is rounded to 64 binary digits, cut to a signed 64 bit number, and accepted if that has four digits (C22_wrapped_partial)."
  },
  {
   "property": "C23",
   "status": "partial",
   "theorems": [
    "C23_significant_partial",
    "C23_only_partial",
    "C23_count_refuted",
    "C23_sign_refuted",
    "C23_short_refuted"
   ],
   "note": "False: a too large count panics, -0123S4 gives 0000..9999, years below 1000 are errors (_refuted). Proved for |Y| >= 1000 and counts up to 4, also for the Y and exponential notations, and that nothing else is a date but -0999..-0100 with count 4."
  },
  {
   "property": "C24",
   "status": "partial",
   "theorems": [
    "C24_set_span_partial",
    "C24_members_covered_partial",
    "C24_sets_parse",
    "C24_negative_years_refuted",
    "C24_mixed_precision_refuted",
    "C24_open_end_range_refuted",
    "C24_both_open_refuted"
   ],
   "note": "Proved for sets of dates with four-digit non-negative years, in any number and order: the span starts at the earliest member, and ends at the latest unless one member contains another; every such set parses. False for negative years, for the end when a year or month and a finer date of it are both members, for the end range with an open start, and when both sides are open (see the _refuted theorems)."
  },
  {
   "property": "C25",
   "status": "partial",
   "theorems": [
    "C25_inclusivity_partial",
    "C25_no_other_feature",
    "C25_inclusivity_refuted"
   ],
   "note": "False for sets with both a member that starts with dots and one that ends with them (see the _refuted theorem); proved for all other sets and for all other features."
  },
  {
   "property": "C26",
   "status": "proved",
   "theorems": [
    "C26_bounds_agree"
   ],
   "note": ""
  },
  {
   "property": "C27",
   "status": "partial",
   "theorems": [
    "C27_ranges_partial",
    "C27_ranges_refuted",
    "C27_outer"
   ],
   "note": "First clause false for sets with dots and negative years (see the _refuted theorem); proved for every date that is not a set with dots. Second clause proved in full (C27_outer)."
  },
  {
   "property": "C28",
   "status": "proved",
   "theorems": [
    "C28_whole_days"
   ],
   "note": ""
  },
  {
   "property": "C29",
   "status": "partial",
   "theorems": [
    "C29_years_partial",
    "C29_years_refuted"
   ],
   "note": "False for a date and time whose offset leads into year 10000 or -10000 (see the _refuted theorem); proved for all others, and the wider bound for those."
  },
  {
   "property": "C30",
   "status": "proved",
   "theorems": [
    "C30_bound_kinds"
   ],
   "note": ""
  },
  {
   "property": "C31",
   "status": "partial",
   "theorems": [
    "C31_lower_upper_partial",
    "C31_not_set_refuted"
   ],
   "note": "The values are proved for every date; the claim that the error satisfies IsNotSet is false (NotSet() builds a NotImplementedError), see the _refuted theorem."
  },
  {
   "property": "C32",
   "status": "proved",
   "theorems": [
    "C32_after",
    "C32_before"
   ],
   "note": ""
  },
  {
   "property": "C33",
   "status": "proved",
   "theorems": [
    "C33_converse",
    "C33_converse_strings"
   ],
   "note": ""
  },
  {
   "property": "C34",
   "status": "partial",
   "theorems": [
    "C34_after_transitive",
    "C34_after_irreflexive_partial",
    "C34_irreflexive_refuted"
   ],
   "note": "Transitivity is proved; irreflexivity is false for dates that are a single instant (date and time), proved for every other date."
  },
  {
   "property": "C35",
   "status": "partial",
   "theorems": [
    "C35_between_closed",
    "C35_between_open",
    "C35_unparseable_partial",
    "C35_unparseable_refuted",
    "C35_widening"
   ],
   "note": "False as stated: when d is before the inception the cessation string is never parsed. Proved: the exact condition when everything parses, which arguments must have parsed, and widening."
  },
  {
   "property": "C36",
   "status": "proved",
   "theorems": [
    "C36_derived",
    "C36_not_derived"
   ],
   "note": ""
  },
  {
   "property": "C37",
   "status": "proved",
   "theorems": [
    "C37_month_length"
   ],
   "note": ""
  },
  {
   "property": "C38",
   "status": "proved",
   "theorems": [
    "C38_flip_year",
    "C38_time_to_bce",
    "C38_every_instant"
   ],
   "note": ""
  },
  {
   "property": "C39",
   "status": "proved",
   "theorems": [
    "C39_ymd_from_string"
   ],
   "note": ""
  },
  {
   "property": "C40",
   "status": "partial",
   "theorems": [
    "C40_ymd_from_strings_partial",
    "C40_any_day_partial",
    "C40_ymd_from_strings_refuted"
   ],
   "note": "False for a day text with a minus sign (\"-5\" is returned as day -5, see the _refuted theorem); proved for every day text without one, and the exact outcome with one."
  },
  {
   "property": "C41",
   "status": "proved",
   "theorems": [
    "C41_deprecated"
   ],
   "note": ""
  },
  {
   "property": "C42",
   "status": "partial",
   "theorems": [
    "C42_spellings_partial",
    "C42_valid_refuted"
   ],
   "note": "The spellings are proved; the last clause is false for the two deprecated spellings open and uuuu."
  },
  {
   "property": "C43",
   "status": "proved",
   "theorems": [
    "C43_add",
    "C43_clear",
    "C43_toggle",
    "C43_named_flags",
    "C43_tests"
   ],
   "note": ""
  },
  {
   "property": "C44",
   "status": "proved",
   "theorems": [
    "C44_timestamp_roundtrip",
    "C44_timestamp_decode",
    "C44_timestamp_error"
   ],
   "note": ""
  },
  {
   "property": "C45",
   "status": "proved",
   "theorems": [
    "C45_parsed_date_roundtrip",
    "C45_typed_date_roundtrip",
    "C45_text_roundtrip",
    "C45_typed_text_roundtrip",
    "C45_text_is_json",
    "C45_html",
    "C45_reader",
    "C45_reader_exact",
    "C45_one_tree",
    "C45_utf8"
   ],
   "note": "Proved on JSON trees and on the text: a model of the encoding/json reader gives the date back from the printed bytes; strings that parse are valid UTF-8. No printed byte is <, > or &. The reader is proved to accept exactly the texts of RFC 8259 (C45_reader_exact)."
  },
  {
   "property": "C46",
   "status": "partial",
   "theorems": [
    "C46_predicates_partial",
    "C46_not_set_refuted"
   ],
   "note": "Proved for the four constructors with payload; NotSet() builds a NotImplementedError."
  },
  {
   "property": "C47",
   "status": "partial",
   "theorems": [
    "C47_level0_partial",
    "C47_mask_partial",
    "C47_refuted"
   ],
   "note": "False: year-months and complete dates carry YEAR too (_refuted). Proved: every level 0 date carries YEAR, and every year mask ending in X carries DECADE, CENTURY or MILLENIUM by its last given digit."
  },
  {
   "property": "C48",
   "status": "proved",
   "theorems": [
    "C48_level0",
    "C48_date",
    "C48_date_and_time",
    "C48_interval",
    "C48_matches"
   ],
   "note": ""
  },
  {
   "property": "C49",
   "status": "partial",
   "theorems": [
    "C49_letter_prefixed_year",
    "C49_qualified_date",
    "C49_exponential_year",
    "C49_significant_digits",
    "C49_group_qualification",
    "C49_individual_qualification",
    "C49_unspecified_digit",
    "C49_interval",
    "C49_season_partial",
    "C49_unspecified_digits_partial",
    "C49_negative_year_partial",
    "C49_sub_year_partial",
    "C49_set_partial",
    "C49_extended_start_partial",
    "C49_extended_end_partial",
    "C49_extended_interval_refuted",
    "C49_season_refuted",
    "C49_set_refuted",
    "C49_unspecified_digits_refuted",
    "C49_negative_year_refuted",
    "C49_sub_year_refuted"
   ],
   "note": "Eight tests accept exactly the documented form. The others accept more (see the _refuted theorems) and their exact languages are given."
  },
  {
   "property": "C50",
   "status": "partial",
   "theorems": [
    "C50_never_set_partial",
    "C50_refuted"
   ],
   "note": "False: the Unspecified flags are never set (_refuted); proved that they are zero for every string, which is what the claim asks for strings without X."
  },
  {
   "property": "C51",
   "status": "partial",
   "theorems": [
    "C51_named",
    "C51_letter_partial",
    "C51_exponential_partial",
    "C51_leading_x_partial",
    "C51_number_refuted",
    "C51_date_refuted"
   ],
   "note": "Which strings errors carry is proved for every input (C51_named). Proved Unsupported or NotImplemented: letter years of more than four digits, exponential years between 9999 and 2^63, and masked years that begin and end with X. False for masks with a digit after an X, which give a number error, and for exponents beyond 64 bits, which can be read as a year in range."
  },
  {
   "property": "C52",
   "status": "proved",
   "theorems": [
    "C52_all_parse",
    "C52_first_failure",
    "C52_output_is_json",
    "C52_html"
   ],
   "note": "Also down to the bytes: the output is one JSON array that reads back as the encoded dates."
  },
  {
   "property": "C53",
   "status": "proved",
   "theorems": [
    "C53_members"
   ],
   "note": ""
  },
  {
   "property": "C54",
   "status": "proved",
   "theorems": [
    "C54_tiling"
   ],
   "note": ""
  },
  {
   "property": "C55",
   "status": "proved",
   "theorems": [
    "C55_nesting"
   ],
   "note": ""
  },
  {
   "property": "C56",
   "status": "proved",
   "theorems": [
    "C56_order",
    "C56_contained"
   ],
   "note": ""
  },
  {
   "property": "C57",
   "status": "proved",
   "theorems": [
    "C57_between",
    "C57_between_open"
   ],
   "note": ""
  },
  {
   "property": "C58",
   "status": "partial",
   "theorems": [
    "C58_days_in_month_refuted",
    "C58_days_in_month_partial",
    "C58_days_in_month_string_partial",
    "C58_days_in_month_string_total"
   ],
   "note": "False: month 0 and months above 12 have 31 days, and text before a first hyphen is ignored (_refuted, C58_case). Proved: the exact answer for every pair of 64 bit integers and for every string, and that neither panics."
  },
  {
   "property": "C59",
   "status": "partial",
   "theorems": [
    "C59_kind",
    "C59_parse_kind",
    "C59_string_refuted",
    "C59_string_partial",
    "C59_foreign_refuted",
    "C59_unrecognized"
   ],
   "note": "The kind is determined for all errors of the library, and for all errors of parsing of whatever package. The string is not in general, since labels may hold quotes (_refuted), but it is for every error of the library that parsing gives (_partial). Errors of other packages need not name the string: all exponents that are too large give the same text (_refuted). The quoted text is proved for every unrecognized string."
  },
  {
   "property": "C60",
   "status": "proved",
   "theorems": [
    "C60_equals",
    "C60_ymd_text",
    "C60_date_text",
    "C60_range_text",
    "C60_span_text"
   ],
   "note": ""
  },
  {
   "property": "C61",
   "status": "partial",
   "theorems": [
    "C61_accepts_partial",
    "C61_flags_refuted",
    "C61_epoch_refuted"
   ],
   "note": "False: one of several expected flags is enough, and expectations of 0 or the empty text are not checked (_refuted). Proved: exactly what is accepted, for every parsed date and all options."
  },
  {
   "property": "C62",
   "status": "proved",
   "theorems": [
    "C62_errors",
    "C62_run",
    "C62_lines",
    "C62_stops"
   ],
   "note": "Every run, as an equivalence: lines, message and end, for every list of arguments; the errors of Matches for every string."
  },
  {
   "property": "C63",
   "status": "partial",
   "theorems": [
    "C63_hull_partial",
    "C63_whole_month_partial",
    "C63_refuted"
   ],
   "note": "False for a day with one X after a given year and month (1985-04-1X is all of April) and for months written 0X; proved for all other masks. What one-X days give is proved exactly."
  },
  {
   "property": "C64",
   "status": "partial",
   "theorems": [
    "C64_order_partial",
    "C64_refuted"
   ],
   "note": "Proved: Matches gives the first level whose test the string passes, and within it the first feature in a fixed order whose form it has. False that a string is reported under its own feature: 1985-04-12? is a qualified date but is reported under Seasons."
  },
  {
   "property": "C65",
   "status": "proved",
   "theorems": [
    "C65_meaning",
    "C65_nothing_else",
    "C65_unambiguous"
   ],
   "note": "Equivalence in both directions between explicit readings and the parser, for all features. Readings describe what the code does, quirks included (a day after a year and month of level 1 is not read; [1985,..] is open to the left). Exponential years are what 64 bits leave of the number (SpecWrap)."
  },
  {
   "property": "C66",
   "status": "partial",
   "theorems": [
    "C66_lines_partial",
    "C66_tells",
    "C66_stops",
    "C66_refuted"
   ],
   "note": "Proved for arguments without line breaks that do not make the parser panic; false for an argument that contains a line break, which the error text repeats. If an argument panics, the lines of the arguments before it are printed and nothing else. Success is always one line, also when the argument contains a line break. The line of an error is its exact text."
  },
  {
   "property": "C67",
   "status": "partial",
   "theorems": [
    "C67_promise_partial",
    "C67_settles",
    "C67_reason_refuted"
   ],
   "note": "Resolution is proved, and that nothing is printed then. The rejection is false: reject is called with the result of fmt.Printf, so the reason is the length of the message and the message only goes to standard output. The message is proved to the last byte."
  },
  {
   "property": "C68",
   "status": "proved",
   "theorems": [
    "C68_whole",
    "C68_nothing_else",
    "C68_unambiguous"
   ],
   "note": "All ten fields of each bound and the texts of both ranges, as an equivalence, for every string."
  },
  {
   "property": "C69",
   "status": "proved",
   "theorems": [
    "C69_error",
    "C69_panic",
    "C69_no_borderline",
    "C69_all_errors",
    "C69_refused",
    "C69_crashes",
    "C69_all_panics"
   ],
   "note": "Equivalence between errors and explicit rules (kind, label, text, first error first), for every string; the same for panics. Excepted by hypothesis: notations within one part in 2^64 below 2^2147483647, for which both possible outcomes are proved to be the only ones."
  },
  {
   "property": "C70",
   "status": "proved",
   "theorems": [
    "C70_same",
    "C70_compare"
   ],
   "note": "Both strings parse, with the same outer bounds; results of the comparisons are equal, and so are errors up to the strings that they quote. The relation is generated by 18 rules, symmetry and transitivity; dates in sets have years 0000 to 9999."
  },
  {
   "property": "C71",
   "status": "proved",
   "theorems": [
    "C71_date",
    "C71_time_interval",
    "C71_date_and_time",
    "C71_letter_year",
    "C71_season",
    "C71_qualified_date",
    "C71_unspecified_digits",
    "C71_negative_year",
    "C71_interval_start",
    "C71_interval_end",
    "C71_exponential",
    "C71_significant",
    "C71_grouping",
    "C71_set",
    "C71_group_qualified",
    "C71_individually_qualified",
    "C71_unspecified_digit",
    "C71_interval",
    "C71_extended_interval",
    "C71_level0",
    "C71_level1",
    "C71_level2",
    "C71_names",
    "C71_span",
    "C71_borderline"
   ],
   "note": "Equivalences for results, errors and panics of 18 feature parsers, ParseExtendedInterval and the three level parsers, called directly. The reservation for notations close to 2^2147483647 concerns exponential years and significant digits only (C71_borderline)."
  },
  {
   "property": "C72",
   "status": "proved",
   "theorems": [
    "C72_after_values",
    "C72_before_values",
    "C72_between_values",
    "C72_ranges_values",
    "C72_after",
    "C72_before",
    "C72_between",
    "C72_ranges"
   ],
   "note": "Values without any exception; values, errors with their texts and panics as one equivalence for strings that are not notations close to 2^2147483647."
  },
  {
   "property": "C73",
   "status": "proved",
   "theorems": [
    "C73_parse",
    "C73_string",
    "C73_compare",
    "C73_between",
    "C73_ranges"
   ],
   "note": "Texts of the library, strconv, time and math/big as far as parsing and comparing can reach them; the equivalence with the rules of C69 excepts the borderline notations of C69."
  },
  {
   "property": "C74",
   "status": "partial",
   "theorems": [
    "C74_parse",
    "C74_matches",
    "C74_wasi",
    "C74_dates_refuted",
    "C74_dash",
    "C74_dates_partial",
    "C74_two_dashes"
   ],
   "note": "Output, message and end of every run of parse, matches and parse-wasi are proved as equivalences. False that every date can be an argument: one that begins with a dash, so every negative year, stops the tool if it comes first (_refuted, and for all such dates in C74_dash); proved for all others and after two dashes."
  },
  {
   "property": "C75",
   "status": "partial",
   "theorems": [
    "C75_days_in_month",
    "C75_days_in_month_string",
    "C75_strings",
    "C75_string_date",
    "C75_string",
    "C75_time",
    "C75_time_strings",
    "C75_string_range",
    "C75_notation_partial"
   ],
   "note": "Values and errors of all helpers proved as equivalences (the values of DaysInMonth are C58); no panic but in ParseExponentialNotation. Partial: ParseExponentialNotation for texts of the form -?\\d+[Ee]\\d+ only, without those within one rounding of 2^2147483647. Fractions of seconds are dropped by the model of time."
  },
  {
   "property": "C76",
   "status": "proved",
   "theorems": [
    "C76_exact",
    "C76_error",
    "C76_no_panic",
    "C76_reader",
    "C76_one_tree",
    "C76_repair",
    "C76_roundtrip",
    "C76_stable",
    "C76_ascii",
    "C76_same_text",
    "C76_parsed",
    "C76_lower",
    "C76_upper",
    "C76_after",
    "C76_before",
    "C76_methods",
    "C76_panic_case",
    "C76_overflow_case"
   ],
   "note": "Texts, errors, round trip and methods proved as equivalences, no panic of Unmarshal. Two findings, with witnesses: {} is read without an error and leaves nil pointers on which Lower, Upper, After and Before panic (C76_panic_case); a timestamp in the last 62135596800 seconds of int64 makes time.Unix overflow, and Before answers false for an earlier date (C76_overflow_case). Error texts of encoding/json are not modelled."
  },
  {
   "property": "C77",
   "status": "proved",
   "theorems": [
    "C77_refines",
    "C77_keeps",
    "C77_keeps_dates",
    "C77_new",
    "C77_disjoint",
    "C77_assign_first",
    "C77_assign_second",
    "C77_separate",
    "C77_date_time",
    "C77_open_set",
    "C77_set_time"
   ],
   "note": "Proved for every string and every heap: same outcome as the value model, older objects unchanged, all objects new, two results disjoint, and the exact sharing inside a result. Objects modelled are DateRange, Date and YMD; a Timestamp belongs to one Date and a DateSpan never leaves the parser. Finding: SetTime on one bound of a date with a time moves the other bound of the same range, and in a set open at both sides start and end are the same DateRange."
  },
  {
   "property": "C78",
   "status": "proved",
   "theorems": [
    "C78_refuses",
    "C78_infinity",
    "C78_zero",
    "C78_whole",
    "C78_point",
    "C78_call_sites",
    "C78_call_messages"
   ],
   "note": "Refused texts as an equivalence, whole part for every number that meets the stated margin, agreement with the parser's model on its texts. big.ParseFloat is modelled with precision 64, base 10. Outside the theorem: numbers of 2^63 and above that are not of the parser's form (up to moving the point), and those within one part in 2^62 of a whole number. Findings: \"Inf\" crashes, \"1984.9999999999999999999\" is the year 1985, \"1p4\" is the year 16."
  },
  {
   "property": "C79",
   "status": "partial",
   "theorems": [
    "C79_address",
    "C79_stops",
    "C79_texts",
    "C79_plain",
    "C79_told",
    "C79_numbers",
    "C79_no_numbers",
    "C79_usual",
    "C79_zeros_refuted",
    "C79_hosts",
    "C79_listens",
    "C79_colons"
   ],
   "note": "Address, faults, number grammar, hosts and messages proved as equivalences for every command line; what %q writes is proved for every text and every table of printable characters (strconv.IsPrint is a parameter), and that different faults have different messages. Finding, with witness: -port 010 listens on port 8 and -port 08080 is refused, because flag.IntVar takes a leading zero for octal (C79_zeros_refuted); -host ::1 cannot start the server, only [::1]. Listening itself and the check of the port number against 65535 are not modelled."
  },
  {
   "property": "C80",
   "status": "partial",
   "theorems": [
    "C80_kept",
    "C80_compare",
    "C80_day",
    "C80_bounds_refuted",
    "C80_taken_refuted"
   ],
   "note": "Proved for every accepted string. Finding, with witness: 1985-04-12? is read as all of April, and 1985-02-31~ is accepted, because the season test (YYYY-MM at the beginning) comes before the test for qualified dates (C80_bounds_refuted, C80_taken_refuted); C80_day says what such a date means instead."
  },
  {
   "property": "C81",
   "status": "partial",
   "theorems": [
    "C81_halves",
    "C81_interval_refuted",
    "C81_half_refuted",
    "C81_alone_refuted",
    "C81_join_refuted"
   ],
   "note": "Proved for every accepted interval that is not taken for a season. Refuted with witnesses: 2004-06/.. is read as June 2004; 1985-04-1X is April alone and April 10 to 19 as a half; -1984-1X is a half but no date; 1985? and 1990 are dates but 1985?/1990 is refused."
  },
  {
   "property": "C82",
   "status": "partial",
   "theorems": [
    "C82_order",
    "C82_dates",
    "C82_members",
    "C82_order_refuted",
    "C82_bracket_refuted"
   ],
   "note": "Proved for every two set strings. Refuted with witnesses: [1985,1990..] is accepted and [1990..,1985] is not; [1985,1990] and {1985,1990} differ in inclusivity."
  },
  {
   "property": "C83",
   "status": "partial",
   "theorems": [
    "C83_stamp",
    "C83_date",
    "C83_day",
    "C83_stamp_refuted"
   ],
   "note": "Proved for every accepted string. Refuted with a witness for a date and time that leaves the year 9999: the text of 9999-12-31T23:59:59-01:00 begins with 10000 and is refused."
  },
  {
   "property": "C84",
   "status": "partial",
   "theorems": [
    "C84_written",
    "C84_interval",
    "C84_open_end",
    "C84_open_end_refuted"
   ],
   "note": "Proved for every accepted string that is not a date and time. Finding, with witness: [1985-04-12..] and 1985-04-12/.. differ, the second is read as April 1985."
  },
  {
   "property": "C85",
   "status": "partial",
   "theorems": [
    "C85_within",
    "C85_compare",
    "C85_apart",
    "C85_between",
    "C85_instant_refuted"
   ],
   "note": "Proved for all pairs. Finding, with witness: 1985-04-12T23:59:59Z is inside 1985-04-12 and IsAfter says it is after it."
  },
  {
   "property": "C86",
   "status": "partial",
   "theorems": [
    "C86_equals",
    "C86_date_text",
    "C86_qualifier_text",
    "C86_parsed",
    "C86_range_text",
    "C86_date_text_refuted",
    "C86_range_text_refuted"
   ],
   "note": "Proved. Refuted with witnesses: components with apostrophes; 1985 and 1985? have ranges with the same text."
  },
  {
   "property": "C87",
   "status": "partial",
   "theorems": [
    "C87_bytes",
    "C87_no_markup",
    "C87_verbatim",
    "C87_size",
    "C87_every",
    "C87_line_refuted"
   ],
   "note": "Proved. Refuted with a witness: spring, a line break, 1985 is accepted."
  },
  {
   "property": "C88",
   "status": "partial",
   "theorems": [
    "C88_hidden_partial",
    "C88_hidden_code",
    "C88_hidden_season",
    "C88_compare",
    "C88_hidden_refuted"
   ],
   "note": "Proved for all strings not read as seasons or groupings and without a month of which just the second digit is hidden, and for codes of seasons and groupings within one year. Refuted with witnesses for the rest: a month 0X is read as October to December, winters end in the following year, and a day such as 1985-12-1X is read as its whole month."
  },
  {
   "property": "C89",
   "status": "partial",
   "theorems": [
    "C89_result",
    "C89_message_partial",
    "C89_exactly",
    "C89_told",
    "C89_visit",
    "C89_stops",
    "C89_reason_refuted",
    "C89_visit_refuted"
   ],
   "note": "Proved for every text and every visit. Refuted with witnesses: 1985-13 and 1985-14 fail differently and show the same message (the length of the text of the error); after 0950S4, on which the parser panics, 1985 is not answered."
  },
  {
   "property": "C90",
   "status": "partial",
   "theorems": [
    "C90_capitals",
    "C90_case",
    "C90_free",
    "C90_small",
    "C90_fixed",
    "C90_case_refuted"
   ],
   "note": "Proved for every accepted text. Refuted with witnesses: letter years, hidden digits, times and the S of significant digits are accepted in capitals only."
  },
  {
   "property": "C91",
   "status": "proved",
   "theorems": [
    "C91_arrives",
    "C91_paths",
    "C91_sent",
    "C91_listed",
    "C91_no_fault",
    "C91_reference",
    "C91_page"
   ],
   "note": "GET requests with decoded paths; ServeMux, FileServer, embed and path.Clean of Go 1.21 and the resolution of references of RFC 3986 are modelled in Site.v. The names of the programs are a parameter (Makefile builds them); they are letters, digits and .-_ with .wasm at the end."
  },
  {
   "property": "C92",
   "status": "proved",
   "theorems": [
    "C92_bounds",
    "C92_follows",
    "C92_alike",
    "C92_order",
    "C92_between",
    "C92_year",
    "C92_month",
    "C92_decade",
    "C92_century",
    "C92_millennium",
    "C92_seasons"
   ],
   "note": "Proved for all pairs. Winters and seasons of hemispheres are within the years that parse (C19, C20)."
  },
  {
   "property": "C93",
   "status": "partial",
   "theorems": [
    "C93_targets",
    "C93_path",
    "C93_usual",
    "C93_refused",
    "C93_answer",
    "C93_hidden",
    "C93_sent",
    "C93_page",
    "C93_follow",
    "C93_spelled",
    "C93_usual_spelled",
    "C93_spelling_refuted",
    "C93_slash_refuted"
   ],
   "note": "Proved for every target whose path escapes no slash and nothing of /wasm/ (C93_spelled; the usual way to write a path is one of these), with any query. It fails for the rest: \"/%77asm/parse-js.wasm\" is answered by 404 because StripPrefix looks at the raw path (C93_hidden says exactly when), and \"/css%2Findex.html\" is redirected to the index page instead of the list of css because the client sees no slash."
  }
 ]
}