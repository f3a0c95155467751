{"id": "C01", "title": "A parsed date echoes its input and carries the classification Matches reports", "statement": "If parser.ParseString(s) succeeds with d then d.EDTF (and d.String()) is exactly s. If s is neither \"..\" nor the empty string, parser.Matches(s) succeeds as well and returns exactly d.Level and d.Feature's level/feature pair; for \"..\" and \"\" the level is -1 and the feature is Open / Unknown.", "quantifier": "every byte string s", "why_tests_cant": "The input space is unbounded (every byte string); a table of examples only samples it.", "anchors": ["parser/parser.go:ParseString", "parser/parser.go:Matches", "level0/level0.go", "level1/level1.go", "level2/level2.go"]}
{"id": "C02", "title": "Nothing outside the validator is ever parsed", "statement": "If parser.ParseString(s) succeeds then parser.IsValid(s) is true. If parser.IsValid(s) is false, ParseString(s) and Matches(s) both return an Unrecognized error carrying s (and never panic).", "quantifier": "every byte string s", "why_tests_cant": "The input space is unbounded (every byte string); a table of examples only samples it.", "anchors": ["parser/parser.go:IsValid", "parser/parser.go:ParseString", "parser/parser.go:Matches"]}
{"id": "C03", "title": "The validator only admits strings that Matches can name", "statement": "If parser.IsValid(s) is true and s is neither \"..\" nor empty, then parser.Matches(s) names a level and a feature for s.", "quantifier": "every byte string s", "why_tests_cant": "The input space is unbounded (every byte string); a table of examples only samples it.", "anchors": ["parser/parser.go:IsValid", "re/level0.go", "re/level1.go", "re/level2.go", "level1/extended_interval.go:IsExtendedInterval"]}
{"id": "C04", "title": "Parsing never panics", "statement": "parser.ParseString(s) always returns (a date or an error); it never panics.", "quantifier": "every byte string s", "why_tests_cant": "Panics hide on inputs nobody thought to try; only a proof over all strings excludes them.", "anchors": ["parser/parser.go:ParseString", "level2/significant_digits.go:ParseSignificantDigits", "common/exponential.go:ParseExponentialNotation", "common/range.go:StringRangeFromYMD"]}
{"id": "C05", "title": "A complete date denotes exactly that calendar day", "statement": "For every calendar day of years -9999..9999 written YYYY-MM-DD (with a leading minus for negative years) ParseString succeeds at level 0, the start bounds are that day's 00:00:00 UTC and the end bounds that day's 23:59:59 UTC, with matching year/month/day, RFC 3339 text and Unix timestamp.", "quantifier": "every valid calendar day of every four digit year, positive or negative", "why_tests_cant": "There are more than seven million such days, including every leap rule boundary and BCE year.", "anchors": ["level0/date.go:ParseDate", "common/span.go:DateSpanFromEDTF", "common/range.go:StringRangeFromYMD", "common/ymd.go:YMDFromStrings", "common/time.go:TimeWithYMD"]}
{"id": "C06", "title": "A year-month denotes exactly that calendar month", "statement": "For every year -9999..9999 and month, YYYY-MM parses at level 0 to a span from the first second of the first day of the month to the last second of the last day of that month (28, 29, 30 or 31 by the proleptic Gregorian rules).", "quantifier": "every four digit year, positive or negative, and every month", "why_tests_cant": "Each leap rule and BCE case is a separate input.", "anchors": ["level0/date.go:ParseDate", "common/range.go:StringRangeFromYMD", "calendar/calendar.go:DaysInMonth"]}
{"id": "C07", "title": "A bare year denotes exactly that calendar year", "statement": "For every year -9999..9999, YYYY parses at level 0 to a span from the first second of January 1st to the last second of December 31st of that year.", "quantifier": "every four digit year, positive or negative", "why_tests_cant": "20000 inputs; only a few are in the test table.", "anchors": ["level0/date.go:ParseDate", "common/range.go:StringRangeFromYMD"]}
{"id": "C08", "title": "Days that do not exist are rejected with an error", "statement": "For every year, month and day number 1..31 where the day exceeds the length of the month, ParseString(YYYY-MM-DD) returns an error (it does not roll over into the next month and does not panic).", "quantifier": "every year -9999..9999, month and day number that is not a real calendar day", "why_tests_cant": "The rejection must hold for every non leap year and every short month.", "anchors": ["common/ymd.go:YMDFromStrings", "calendar/calendar.go:DaysInMonth"]}
{"id": "C09", "title": "A date and time denotes exactly that UTC instant", "statement": "For every valid calendar day of years 0..9999 and every hh:mm:ss (00:00:00..23:59:59), with no zone, Z, +hh/-hh or +hh:mm/-hh:mm, ParseString gives four equal bounds whose Unix timestamp is the civil time read as UTC minus the stated offset.", "quantifier": "every date, time of day and offset", "why_tests_cant": "The product space is astronomically large.", "anchors": ["level0/date_and_time.go:ParseDateAndTime"]}
{"id": "C10", "title": "A BCE date and time denotes exactly that UTC instant", "statement": "The statement of C09 for years -9999..-1: the instant is the civil time of the negative year minus the stated offset.", "quantifier": "every negative year, day, time of day and offset", "why_tests_cant": "Offsets that cross a year boundary are the interesting inputs and are not in the table.", "anchors": ["level0/date_and_time.go:ParseDateAndTime", "common/year.go:TimeToBCE"]}
{"id": "C11", "title": "An interval is composed of its two halves", "statement": "For any two level 0 dates A and B (any mix of precisions and eras) that parse, ParseString(A/B) succeeds as a Time Interval; its start range runs from the first to the last second of A and its end range from the first to the last second of B, and the two ranges carry A and B as their EDTF text. If either half is not a real date the interval is rejected.", "quantifier": "every pair of level 0 dates", "why_tests_cant": "Pairs of dates: more than 10^13 inputs.", "anchors": ["level0/time_interval.go:ParseTimeInterval", "common/span.go:DateSpanFromEDTF"]}
{"id": "C12", "title": "Intervals with an open or unknown start", "statement": "For any level 0 date B that parses, ../B and /B parse at level 1 with both start bounds flagged open (respectively unknown), carrying no time, and an end range from the first to the last second of B.", "quantifier": "every level 0 date", "why_tests_cant": "The input space is unbounded (every byte string); a table of examples only samples it.", "anchors": ["level1/extended_interval.go:ParseExtendedIntervalStart", "common/span.go:dateSpanFromEDTF"]}
{"id": "C13", "title": "Intervals with an open or unknown end", "statement": "For any level 0 date A that parses, ParseString(A/..) and ParseString(A/) give a start range from the first to the last second of A and both end bounds flagged open (respectively unknown), carrying no time.", "quantifier": "every level 0 date", "why_tests_cant": "The input space is unbounded (every byte string); a table of examples only samples it.", "anchors": ["level1/extended_interval.go:ParseExtendedIntervalEnd", "level1/level1.go:ParseString", "re/re.go:PATTERN_SEASON"]}
{"id": "C14", "title": "A fully qualified date is that date with the qualifier on every component", "statement": "For any level 0 date A that parses, ParseString(A?), (A~) and (A%) succeed with the same span as A and with the uncertain and/or approximate flags set for exactly the components present in A.", "quantifier": "every level 0 date and qualifier", "why_tests_cant": "The input space is unbounded (every byte string); a table of examples only samples it.", "anchors": ["level1/qualified_date.go:ParseQualifiedDate", "level1/level1.go:ParseString", "common/range.go:StringRangeFromYMD"]}
{"id": "C15", "title": "A group qualifier applies to its component and everything to its left", "statement": "For YYYY[q]-MM[q]-DD[q] (each qualifier optional, real calendar dates) the level 2 group qualification parser returns the span of the bare date and a component is flagged uncertain (approximate) exactly when a ? or % (~ or %) stands to the right of it or of a later component.", "quantifier": "every four digit year, month, day and choice of qualifiers", "why_tests_cant": "Four choices per component times every date.", "anchors": ["level2/qualification.go:ParseGroupQualification", "common/range.go:StringRangeFromYMD"]}
{"id": "C16", "title": "An individual qualifier applies to its component only", "statement": "For [q]YYYY-[q]MM-[q]DD the level 2 individual qualification parser returns the span of the bare date and a component is flagged uncertain (approximate) exactly when a ? or % (~ or %) stands immediately to its left.", "quantifier": "every four digit year, month, day and choice of qualifiers", "why_tests_cant": "Four choices per component times every date.", "anchors": ["level2/qualification.go:ParseIndividualQualification", "common/range.go:StringRangeFromYMD"]}
{"id": "C17", "title": "Unspecified rightmost digits denote the whole decade, century, year or month", "statement": "YYYX, YYXX and YXXX span the whole decade, century or millennium; YYYY-XX the whole year, YYYY-MM-XX the whole month and YYYY-XX-XX the whole year, for every choice of the specified digits.", "quantifier": "every choice of the specified digits", "why_tests_cant": "Every prefix is a separate input.", "anchors": ["level1/unspecified_digits.go:ParseUnspecifiedDigits", "common/range.go:StringRangeFromYMD"]}
{"id": "C18", "title": "The span of an unspecified-digit date covers every date it stands for", "statement": "If a level 1 or level 2 string with X digits parses, every calendar day obtained by replacing each X with a digit lies between Lower() and Upper().", "quantifier": "every mask over digits and X, and every day it stands for", "why_tests_cant": "Masks times completions is a huge space; a wrong bound shows only on particular masks.", "anchors": ["level2/unspecified_digit.go:ParseUnspecifiedDigit", "common/range.go:StringRangeFromYMD"]}
{"id": "C19", "title": "Seasons denote the right three months", "statement": "For every year YYYY, YYYY-21/22/23/24 and the words Spring/Summer/Fall/Winter (any letter case, any spacing around the comma) followed by YYYY span March-May, June-August, September-November and December to the end of February of the next year.", "quantifier": "every four digit year, season and spelling", "why_tests_cant": "Year by season by spelling.", "anchors": ["level1/season.go:ParseSeason", "calendar/calendar.go:DaysInMonth"]}
{"id": "C20", "title": "Sub-year groupings denote the right months", "statement": "For every year YYYY and code 25..41, YYYY-code spans the quarter, quadrimester, semester or hemisphere season listed in the EDTF table, winter (28) and southern summer (30) ending on the last day of February of the next year.", "quantifier": "every four digit year and code 25..41", "why_tests_cant": "17 codes times 10000 years.", "anchors": ["level2/sub_year_grouping.go:ParseSubYearGroupings"]}
{"id": "C21", "title": "Letter-prefixed years agree with plain years, and years beyond four digits are reported unsupported", "statement": "Y followed by exactly four digits (optionally negative) denotes the same span as the plain four digit year; Y followed by more than four digits returns an Unsupported error, whatever the digits.", "quantifier": "every digit string of every length", "why_tests_cant": "Digit strings have unbounded length.", "anchors": ["level1/letter_prefixed_calendar_year.go:ParseLetterPrefixedCalendarYear"]}
{"id": "C22", "title": "Exponential years denote mantissa times ten to the exponent, or are reported unsupported", "statement": "For every integer mantissa m and exponent e, Ym Ee denotes the year m*10^e when that lies in the four digit range and is an Unsupported error when its magnitude exceeds 9999.", "quantifier": "every mantissa and exponent of any length", "why_tests_cant": "Mantissa and exponent are unbounded; rounding and wrap-around only show on large ones.", "anchors": ["level2/exponential_year.go:ParseExponentialYear", "common/exponential.go:ParseExponentialNotation"]}
{"id": "C23", "title": "Significant digits", "statement": "For every four digit year Y (positive or negative) and digit count n, YYYYSn spans the years that agree with Y except in the last n digits, from the earliest to the latest; a count larger than the number of digits is an error.", "quantifier": "every year and every digit string n", "why_tests_cant": "The count is an unbounded digit string.", "anchors": ["level2/significant_digits.go:ParseSignificantDigits"]}
{"id": "C24", "title": "A set spans from its earliest to its latest member", "statement": "For every set [..] or {..} of dates that parses, the start range is that of the earliest member and the end range that of the latest, so every member lies between Lower() and Upper(); a leading (trailing) .. makes the start (end) open instead.", "quantifier": "every finite list of dates, in every order", "why_tests_cant": "The number and order of the members is unbounded.", "anchors": ["level2/set_representation.go:ParseSetRepresentations"]}
{"id": "C25", "title": "A set's brackets decide its inclusivity flag", "statement": "When a set parses, every closed bound carries the flag ANY for [ and ALL for {, every open side carries no inclusivity flag, and no other feature ever sets an inclusivity flag.", "quantifier": "every byte string s", "why_tests_cant": "The input space is unbounded (every byte string); a table of examples only samples it.", "anchors": ["level2/set_representation.go:ParseSetRepresentations"]}
{"id": "C26", "title": "Time text, Unix timestamp and calendar date always agree", "statement": "For every string that parses and each of the four bounds that carries a timestamp, the RFC 3339 text is the rendering of that timestamp in UTC and the year/month/day record, when present, is the UTC calendar date of that timestamp.", "quantifier": "every byte string s that parses, every bound", "why_tests_cant": "The input space is unbounded (every byte string); a table of examples only samples it.", "anchors": ["date.go:SetTime", "timestamp.go", "common/span.go:dateSpanFromYMD", "level0/date_and_time.go"]}
{"id": "C27", "title": "Within each range the lower bound is not after the upper bound", "statement": "For every string that parses, Start.Lower <= Start.Upper and End.Lower <= End.Upper whenever both carry timestamps; and for every feature other than intervals and sets Lower() <= Upper().", "quantifier": "every byte string s that parses", "why_tests_cant": "The input space is unbounded (every byte string); a table of examples only samples it.", "anchors": ["common/span.go:DateSpanFromEDTF", "common/range.go:StringRangeFromYMD", "level2/set_representation.go"]}
{"id": "C28", "title": "Spans start at midnight and end one second before midnight", "statement": "For every string that parses to anything but a Date and Time, Lower() (when set) is 00:00:00 UTC and Upper() (when set) is 23:59:59 UTC of its day.", "quantifier": "every byte string s that parses", "why_tests_cant": "The input space is unbounded (every byte string); a table of examples only samples it.", "anchors": ["common/span.go", "edtf.go:HMS_LOWER", "edtf.go:HMS_UPPER"]}
{"id": "C29", "title": "Every returned time lies in the four digit year range", "statement": "For every string that parses, every timestamp lies between the start of year -9999 and the end of year 9999, so that its RFC 3339 text has a four digit year.", "quantifier": "every byte string s that parses", "why_tests_cant": "The input space is unbounded (every byte string); a table of examples only samples it.", "anchors": ["common/ymd.go:YMDFromStrings", "level0/date_and_time.go"]}
{"id": "C30", "title": "Each bound is exactly one of open, unknown or dated", "statement": "For every string that parses and each of the four bounds: exactly one holds of - flagged open, flagged unknown, carries a timestamp; and the text and timestamp are present together.", "quantifier": "every byte string s that parses, every bound", "why_tests_cant": "The input space is unbounded (every byte string); a table of examples only samples it.", "anchors": ["common/range.go:OpenDateRange", "common/range.go:UnknownDateRange", "common/span.go"]}
{"id": "C31", "title": "Lower() and Upper() return the outer bounds or a not-set error", "statement": "For every parsed date, Lower() is the time of Start.Lower and Upper() that of End.Upper; when that bound has no timestamp they return an error for which IsNotSet is true.", "quantifier": "every parsed date", "why_tests_cant": "The input space is unbounded (every byte string); a table of examples only samples it.", "anchors": ["edtf.go:Lower", "edtf.go:Upper", "errors.go:NotSet", "errors.go:IsNotSet"]}
{"id": "C32", "title": "Before and After compare spans", "statement": "For all dates d,u with the needed bounds set: d.After(u) is true exactly when Lower(d) is not earlier than Upper(u), d.Before(u) exactly when Upper(d) is not later than Lower(u); an open d (\"..\" or \"open\") is neither; a missing bound is an error and never a boolean.", "quantifier": "every pair of dates", "why_tests_cant": "Every pair of dates, including open, unknown and equal ones.", "anchors": ["edtf.go:After", "edtf.go:Before"]}
{"id": "C33", "title": "Before and After are converses", "statement": "For all dates d,u neither of which is the open date: d.Before(u) and u.After(d) return the same boolean, and one fails exactly when the other does; the same for cmp.IsBefore and cmp.IsAfter on strings.", "quantifier": "every pair of dates / strings", "why_tests_cant": "Pairs of arbitrary dates.", "anchors": ["edtf.go:After", "edtf.go:Before", "cmp/after.go", "cmp/before.go"]}
{"id": "C34", "title": "After is a strict order", "statement": "After is transitive on parsed dates whose lower bound is not after their upper bound, and no date is after itself.", "quantifier": "every triple of dates", "why_tests_cant": "Triples of arbitrary dates.", "anchors": ["edtf.go:After"]}
{"id": "C35", "title": "IsBetween means neither before the inception nor after the cessation", "statement": "For all strings, when no parse or bound fails, cmp.IsBetween(d,i,c) is true exactly when Upper(d) > Lower(i) and (c is \"..\" or Lower(d) < Upper(c)); an unparseable argument gives an error; widening c to \"..\" never turns true into false.", "quantifier": "every triple of strings", "why_tests_cant": "Triples of arbitrary strings.", "anchors": ["cmp/between.go:IsBetween"]}
{"id": "C36", "title": "DeriveRanges reports exactly the parsed timestamps", "statement": "DeriveRanges(s) reports derived = true exactly when s parses and all four bounds carry timestamps, and then Outer is (Start.Lower, End.Upper) and Inner is (Start.Upper, End.Lower); the open and unknown strings give false without an error, a string that does not parse gives an error.", "quantifier": "every byte string s", "why_tests_cant": "The input space is unbounded (every byte string); a table of examples only samples it.", "anchors": ["unix/range.go:DeriveRanges"]}
{"id": "C37", "title": "DaysInMonth is the Gregorian month length", "statement": "For every year -9999..9999 and month 1..12 calendar.DaysInMonth (and DaysInMonthWithString on its text form) returns the length of that month in the proleptic Gregorian calendar, without error.", "quantifier": "every year and month", "why_tests_cant": "240000 inputs, with the leap rules in negative years.", "anchors": ["calendar/calendar.go:DaysInMonth", "calendar/calendar.go:DaysInMonthWithString"]}
{"id": "C38", "title": "Flipping the era keeps month, day and time of day", "statement": "common.FlipYear negates every year (and undoes itself), and common.TimeToBCE maps a time in year y to the same month, day and time of day in year -y.", "quantifier": "every 64 bit year (FlipYear), every time (TimeToBCE)", "why_tests_cant": "All integers, all instants.", "anchors": ["common/year.go"]}
{"id": "C39", "title": "YMDFromString only returns real calendar dates", "statement": "For every string, if common.YMDFromString succeeds then the month is 1..12, the day exists in that month and year, and the year is within -9999..9999; a missing month becomes January and a missing day the last day of the month.", "quantifier": "every byte string s", "why_tests_cant": "The input space is unbounded (every byte string); a table of examples only samples it.", "anchors": ["common/ymd.go:YMDFromString", "common/ymd.go:YMDFromStrings"]}
{"id": "C40", "title": "YMDFromStrings only returns real calendar dates", "statement": "For every triple of strings, if common.YMDFromStrings succeeds then the result is a real calendar date in years -9999..9999 that the three strings spell.", "quantifier": "every triple of byte strings", "why_tests_cant": "The input space is unbounded (every byte string); a table of examples only samples it.", "anchors": ["common/ymd.go:YMDFromStrings"]}
{"id": "C41", "title": "Deprecated spellings have exactly one current spelling", "statement": "IsDeprecated(s) is true exactly when ReplaceDeprecated(s) succeeds; the replacement is never itself deprecated and is open (unspecified) exactly when s is.", "quantifier": "every byte string s", "why_tests_cant": "The input space is unbounded (every byte string); a table of examples only samples it.", "anchors": ["deprecated.go"]}
{"id": "C42", "title": "Open, unspecified and unknown spellings", "statement": "IsOpen, IsUnspecified and IsUnknown accept exactly the two documented spellings each, IsUnknown and IsUnspecified agree, no string is both open and unspecified, and every string they accept is accepted by parser.IsValid.", "quantifier": "every byte string s", "why_tests_cant": "The input space is unbounded (every byte string); a table of examples only samples it.", "anchors": ["edtf.go:IsOpen", "edtf.go:IsUnspecified", "edtf.go:IsUnknown", "parser/parser.go:IsValid"]}
{"id": "C43", "title": "Precision flags form a bit set", "statement": "For all 32 bit flag sets: after AddFlag(x) HasFlag(x) holds (x non zero) and no other flag changed; after ClearFlag(x) HasFlag(x) is false and no other flag changed; ToggleFlag is its own inverse; the named flags are pairwise disjoint single bits.", "quantifier": "every pair of 32 bit values", "why_tests_cant": "2^64 pairs.", "anchors": ["precision.go"]}
{"id": "C44", "title": "Timestamps survive JSON", "statement": "For every 64 bit timestamp, UnmarshalJSON(MarshalJSON(ts)) gives back ts, with or without surrounding quotes; anything that is not a decimal 64 bit integer is an error.", "quantifier": "every 64 bit integer, every byte string", "why_tests_cant": "2^64 values.", "anchors": ["timestamp.go"]}
{"id": "C45", "title": "Dates survive JSON", "statement": "For every parsed date, encoding it to JSON and decoding gives back the same date: omitted fields decode to their zero values, a timestamp of 0 is kept, a missing timestamp stays missing.", "quantifier": "every date", "why_tests_cant": "The input space is unbounded (every byte string); a table of examples only samples it.", "anchors": ["edtf.go:EDTFDate", "date.go:Date", "daterange.go", "timestamp.go", "cmd/parse/main.go"]}
{"id": "C46", "title": "Error predicates recognise exactly their own constructor", "statement": "Each of NotSet, NotImplemented, Invalid, Unsupported, Unrecognized builds an error that its own Is... predicate accepts and the other four reject.", "quantifier": "every label and string", "why_tests_cant": "The input space is unbounded (every byte string); a table of examples only samples it.", "anchors": ["errors.go"]}
{"id": "C47", "title": "The precision field names the written precision", "statement": "A level 0 year, year-month or complete date carries the precision flag YEAR, MONTH or DAY respectively; an unspecified-digit year carries DECADE, CENTURY or MILLENIUM.", "quantifier": "every date", "why_tests_cant": "The input space is unbounded (every byte string); a table of examples only samples it.", "anchors": ["common/range.go:StringRangeFromYMD"]}
{"id": "C48", "title": "Level 0 accepts exactly the level 0 grammar", "statement": "IsLevel0(s) holds exactly when s is a date [-]YYYY[-MM[-DD]] with month 01..12 and day 01..31, such a date followed by Thh:mm:ss and an optional zone, or two such dates separated by a slash; IsDate, IsDateAndTime and IsTimeInterval accept exactly the three cases and Matches never fails on a level 0 string.", "quantifier": "every byte string s", "why_tests_cant": "The input space is unbounded (every byte string); a table of examples only samples it.", "anchors": ["re/re.go", "re/level0.go", "level0/level0.go"]}
{"id": "C49", "title": "Each feature test accepts exactly its own grammar", "statement": "IsLetterPrefixedCalendarYear, IsSeason, IsQualifiedDate, IsUnspecifiedDigits, IsExtendedInterval, IsNegativeCalendarYear, IsExponentialYear, IsSignificantDigits, IsSubYearGrouping, IsSetRepresentation, IsGroupQualification, IsIndividualQualification, IsUnspecifiedDigit and IsInterval hold exactly on the strings of the documented form.", "quantifier": "every byte string s", "why_tests_cant": "The input space is unbounded (every byte string); a table of examples only samples it.", "anchors": ["re/re.go", "re/level1.go", "re/level2.go", "level1/*.go", "level2/*.go"]}
{"id": "C50", "title": "Unspecified digits are flagged", "statement": "When a date with X digits parses, its Unspecified flags name the components that contain an X.", "quantifier": "every byte string s that parses", "why_tests_cant": "The input space is unbounded (every byte string); a table of examples only samples it.", "anchors": ["date.go:Date", "common/span.go:dateSpanFromYMD"]}
{"id": "C51", "title": "Error values name the offending string", "statement": "Every Invalid, Unsupported, NotImplemented or Unrecognized error returned by ParseString carries a string that is the input or was derived from it, and level 1 / level 2 strings that cannot be represented are reported as Unsupported or NotImplemented, never as a date.", "quantifier": "every byte string s", "why_tests_cant": "The input space is unbounded (every byte string); a table of examples only samples it.", "anchors": ["errors.go", "parser/parser.go"]}
{"id": "C52", "title": "The parse tool prints one JSON array with one element per argument", "statement": "For every list of arguments that all parse, the parse tool writes '[', the encodings of the parsed dates in order separated by single commas, and ']'; at the first argument that does not parse it stops with a failure and never writes the closing bracket.", "quantifier": "every list of arguments", "why_tests_cant": "Argument lists are unbounded.", "anchors": ["cmd/parse/main.go", "cmd/matches/main.go"]}
{"id": "C53", "title": "The JSON of a date has the documented members", "statement": "The JSON object of every date has exactly one member each of start, end, edtf, level and feature with those values; a range has edtf, lower and upper; a bound has ymd (null when missing), datetime, timestamp and the flag members exactly when they are non-empty, present, non-zero or true, numbers being canonical decimal integers.", "quantifier": "every date", "why_tests_cant": "Which members are omitted depends on ten fields of four bounds; tests compare a handful of outputs.", "anchors": ["edtf.go:EDTFDate", "date.go:Date", "daterange.go:DateRange", "ymd.go:YMD", "timestamp.go:MarshalJSON"]}
{"id": "C54", "title": "Consecutive level 0 dates leave no gap", "statement": "For every level 0 day, month or year that exists and the next one of its kind, the lower bound of the second date is one second after the upper bound of the first.", "quantifier": "every level 0 date and its successor", "why_tests_cant": "Off-by-one errors at month, leap-year and era boundaries are only hit by the right pairs.", "anchors": ["level0/date.go", "common/ymd.go", "calendar/calendar.go"]}
{"id": "C55", "title": "A finer level 0 date lies within the coarser one", "statement": "When one level 0 date only adds a month or day to another, its bounds lie within the bounds of the other.", "quantifier": "every pair of level 0 dates, one refining the other", "why_tests_cant": "Pairs are unbounded in tests only by sampling; negative leap years are easy to miss.", "anchors": ["level0/date.go", "common/ymd.go"]}
{"id": "C56", "title": "IsBefore and IsAfter order level 0 dates by the calendar", "statement": "For level 0 dates a and b, IsBefore(a, b) and IsAfter(b, a) succeed with the same answer, which is true exactly when the last day of a is before the first day of b; dates of which one contains the other are in neither order.", "quantifier": "every pair of level 0 dates", "why_tests_cant": "The space of pairs is large and mixes precisions and eras.", "anchors": ["cmp/before.go", "cmp/after.go"]}
{"id": "C57", "title": "IsBetween on level 0 dates means overlapping", "statement": "For level 0 dates, IsBetween(s, i, c) is true exactly when s is not wholly before i and not wholly after c; with an open cessation only the first condition counts.", "quantifier": "every triple of level 0 dates", "why_tests_cant": "Triples of mixed precision are only sampled by tests.", "anchors": ["cmp/between.go"]}
{"id": "C58", "title": "DaysInMonth rejects months that do not exist", "statement": "DaysInMonth returns the Gregorian length of the month for every year and month it accepts and an error for a month outside 1 to 12; DaysInMonthWithString does the same for the text of a year and a month; neither panics.", "quantifier": "every pair of 64 bit integers, every byte string", "why_tests_cant": "The integers and strings are unbounded for tests.", "anchors": ["calendar/calendar.go:DaysInMonth", "calendar/calendar.go:DaysInMonthWithString"]}
{"id": "C59", "title": "Error texts identify the error", "statement": "The text of an error of the library determines its kind and the string it is about; the error for a string that is no date quotes it unchanged.", "quantifier": "every error value, every byte string", "why_tests_cant": "Ambiguity depends on quotes inside the strings.", "anchors": ["errors.go", "parser/parser.go:ParseString"]}
{"id": "C60", "title": "Equality and texts of year-month-day values are faithful", "statement": "YMD.Equals is equality; the String text of a YMD determines it, and the String texts of Date, DateRange and DateSpan determine the timestamps and YMDs they print.", "quantifier": "every pair of values", "why_tests_cant": "Injectivity is a statement about all pairs.", "anchors": ["ymd.go", "date.go", "daterange.go", "datespan.go"]}
{"id": "C61", "title": "The test checker accepts exactly the expected dates", "statement": "TestDate accepts a parsed date exactly when every bound has the expected RFC 3339 text, Unix time, open and unknown marks and all expected flags.", "quantifier": "every parsed date and every set of options", "why_tests_cant": "The checker itself is not tested.", "anchors": ["tests/tests.go"]}
{"id": "C62", "title": "The matches tool prints one line per argument", "statement": "For arguments that parse and are neither .. nor empty, the matches tool prints for each, in order, the string, its level and its feature as ParseString reports them; at the first string that is not valid, or is .. or empty, it stops with a failure.", "quantifier": "every list of arguments", "why_tests_cant": "Argument lists are unbounded.", "anchors": ["cmd/matches/main.go"]}
{"id": "C63", "title": "A mask's span is no wider than what it stands for", "statement": "If a string with unspecified digits (X) parses, its lower bound is the first instant of some date that the mask stands for and its upper bound the last instant of some such date.", "quantifier": "every string that stands for at least one date", "why_tests_cant": "Masks combine freely over years, months and days; the tests pin a few spans and cannot show that none is too wide.", "anchors": ["common/ymd.go", "level1/unspecified_digits.go", "level1/season.go", "level2/unspecified_digit.go"]}
{"id": "C64", "title": "Strings are reported under the feature whose form they have", "statement": "Matches reports a string that has the form of a feature, and of no lower level, under the name and level of that feature.", "quantifier": "every string", "why_tests_cant": "Each test lists a few strings per feature; which feature wins where the forms overlap is not tested.", "anchors": ["parser/parser.go", "level0/level0.go", "level1/level1.go", "level2/level2.go"]}
{"id": "C65", "title": "What every string is read as", "statement": "For each feature there is an explicit reading of its strings as a pair of outer bounds (an instant, open or unknown). ParseString accepts a string taken for a feature exactly when the reading exists, and its level, feature and outer bounds are those of the reading; apart from these strings it accepts only .. and the empty string.", "quantifier": "every string", "why_tests_cant": "Acceptance and bounds over all strings of all features, malformed ones included, cannot be enumerated.", "anchors": ["parser/parser.go", "common/ymd.go", "common/span.go", "level1/season.go", "level2/set_representation.go", "level2/significant_digits.go", "level2/exponential_year.go", "level2/sub_year_grouping.go"]}
{"id": "C66", "title": "parse-wasi answers each argument with one line", "statement": "parse-wasi prints one line per argument, in order. The line begins with a brace exactly when the argument parses, and is then JSON that reads back as the parsed date; otherwise it is the text of the error.", "quantifier": "every list of arguments", "why_tests_cant": "The tool has no tests and its inputs are unbounded.", "anchors": ["cmd/parse-wasi/main.go", "errors.go"]}
{"id": "C67", "title": "The promise of parse-wasm tells what went wrong", "statement": "parse_edtf resolves with the JSON of the date if the string parses, and is rejected with the error message otherwise.", "quantifier": "every string", "why_tests_cant": "The WASM binding is not tested.", "anchors": ["cmd/parse-wasm/main.go"]}
{"id": "C68", "title": "Every field of every result", "statement": "A string that is taken for a feature parses exactly when that feature gives it a span, and the result is that span: for both ranges their text, and for each of the four bounds its date-time text, timestamp, year-month-day, uncertainty, approximation, unspecified digits, precision, openness, unknownness and inclusivity. Besides these only .. and the empty string parse.", "quantifier": "every string", "why_tests_cant": "The tests compare the outer timestamps of some hundred strings; the other fields are hardly looked at.", "anchors": ["parser/parser.go", "common/span.go", "common/range.go", "level2/set_representation.go"]}
{"id": "C69", "title": "Which error every rejected string gets", "statement": "A string is rejected with an error exactly when an explicit rule refuses it, and the error has the kind, the label and the text that the rule gives. The parser panics exactly on exponential notations beyond the largest floating point number and on significant digits that are more than the year has but less than ten to the power of their number. Left open are only notations whose number is below two to the power of 2147483647 by less than one part in two to the power of 64.", "quantifier": "every string", "why_tests_cant": "The tests have a handful of invalid strings and do not look at the errors.", "anchors": ["parser/parser.go", "common/span.go", "common/ymd.go", "level1/level1.go", "level2/level2.go", "errors.go"]}
{"id": "C70", "title": "Different ways of writing the same time agree", "statement": "One second written in different zones; a year with the letter Y, in exponential notation, or with unspecified month and day; a decade, century, millennium or significant digits and the interval of their years; a season as code, in words and as months; a grouping and its months; a set of one date and the date; a set of two dates or a range in a set and the interval; a set with dots and the open interval: each such pair, and everything that follows by symmetry and transitivity, parses to the same outer timestamps, date-time texts and open and unknown marks. One spelling can replace the other in every argument of IsBefore, IsAfter and IsBetween.", "quantifier": "every pair of strings related by the rules, and every other argument of the comparisons", "why_tests_cant": "The tests look at each notation by itself and never compare two of them.", "anchors": ["parser/parser.go", "common/span.go", "level1/season.go", "level2/set_representation.go", "cmp/before.go", "cmp/after.go", "cmp/between.go"]}
{"id": "C71", "title": "Every exported parser called directly", "statement": "Each exported parser of one feature, of the extended intervals and of one level gives, to a string of its form, exactly the spans, errors and panics that explicit rules give, with its own label and level, and to every other string the error with its label. The names the levels give and the spans of DateSpanFromEDTF are the same by rules. The season parser takes a season word after any text; the parser of the sub-year groupings takes the four seasons and rejects the months 10 to 12 that its expression takes.", "quantifier": "every string, for each of the 26 functions", "why_tests_cant": "The tests call each parser with a few strings of its own feature and never with anything else.", "anchors": ["level0/level0.go", "level1/level1.go", "level1/season.go", "level2/level2.go", "level2/sub_year_grouping.go", "common/span.go"]}
{"id": "C72", "title": "The comparisons and Unix ranges of all strings", "statement": "IsAfter, IsBefore, IsBetween and DeriveRanges give exactly what explicit rules give, for every string: the order of the two outer bounds that face each other, false for two dots, the error of the bound without a time, the failure of the argument that is parsed first, and panics. IsBetween looks at the cessation only if the date is not before the inception. DeriveRanges gives the four bounds if all have a time, and nothing, without an error, if one has none or for the four special strings.", "quantifier": "every pair or triple of strings, errors and panics included", "why_tests_cant": "The tests compare some tens of strings and look neither at errors nor at special strings in each place.", "anchors": ["cmp/after.go", "cmp/before.go", "cmp/between.go", "unix/range.go", "edtf.go"]}
{"id": "C73", "title": "The text of every error", "statement": "Every error of ParseString, IsAfter, IsBefore, IsBetween and DeriveRanges has exactly the text that explicit rules give: the library's own texts with string and label; the texts of strconv for masked numbers and for exponents beyond 64 bits; of math/big for larger exponents; of time.Parse for a time of day, naming the first of hour, minute, second, zone minutes, zone hours and day that is out of range, or the T that stands where a dash should; and the words of the comparisons before the error that they pass on. With C69 the text follows from the string alone.", "quantifier": "every string, every pair or triple of strings", "why_tests_cant": "The tests only look at whether there is an error.", "anchors": ["errors.go", "edtf.go", "parser/parser.go", "level0/date_and_time.go", "common/exponential.go", "common/ymd.go", "cmp/between.go", "cmp/before.go", "cmp/after.go", "unix/range.go"]}
{"id": "C74", "title": "The tools take every date on the command line", "statement": "parse, matches and parse-wasi handle every EDTF date that is given as an argument: the output, the message on failure and how the run ends follow from the arguments by explicit rules, for every command line.", "quantifier": "every list of arguments", "why_tests_cant": "The tools have no tests; the first argument goes through the flag package, which reads a leading dash as a flag.", "anchors": ["cmd/parse/main.go", "cmd/matches/main.go", "cmd/parse-wasi/main.go"]}
{"id": "C75", "title": "The helpers answer exactly when they should", "statement": "The exported helpers of the packages common and calendar, called directly: DaysInMonth, DaysInMonthWithString, YMDFromStrings, YMDFromString, YMDFromStringDate, TimeWithYMD, TimeWithYMDString, StringRangeFromYMD and ParseExponentialNotation return a value exactly for the arguments that explicit rules name, that value, and otherwise exactly the error of the rules; only ParseExponentialNotation can panic, exactly beyond the range of math/big.", "quantifier": "every argument: strings, 64 bit ints, YMD values with any fields", "why_tests_cant": "The tests call the helpers with a handful of dates; the branches for zero, negative and huge numbers, for masks inside a component, and for the smallest int are reached by no test and by no EDTF string.", "anchors": ["common/ymd.go", "common/time.go", "common/range.go", "common/exponential.go", "calendar/calendar.go"]}
{"id": "C76", "title": "A date is read from exactly the JSON texts that describe one", "statement": "json.Unmarshal into a *EDTFDate returns a date exactly for the JSON texts (RFC 8259, nested at most 10000 deep) in which every member named like a field, in any letter case, has a value of that field's type, and then exactly the date that the members say, the last one winning and objects merging; every other text is an error and none panics. Every date the Go types can hold is written by json.Marshal so that it is read back, with bytes that are no UTF-8 replaced by U+FFFD; a parsed date comes back unchanged, and Lower, Upper, String, After and Before answer on it as before. On a date with missing pointers Lower, Upper, After and Before panic exactly when a bound they need is missing, and After and Before compare the timestamps as 64 bit counts of seconds since the year 1.", "quantifier": "every text; every date with nil pointers anywhere, any strings, 64 bit numbers and 32 bit flag sets; every parsed date", "why_tests_cant": "The repository's test marshals and unmarshals five dates; it never reads a text that Marshal did not write, so duplicate members, other letter case, null, invalid UTF-8 and missing members are not tried.", "anchors": ["edtf.go:58-150", "timestamp.go", "date.go", "daterange.go", "edtf_test.go:45-70"]}
{"id": "C77", "title": "Parsed dates are new objects that share nothing with one another", "statement": "With objects and pointers instead of values, parser.ParseString has for every string and every state of memory the outcome of the model with values: the same date when the pointers are followed, the same error, or a panic. It changes no object that existed before, every DateRange, Date and YMD of its result is new, and assigning to the objects of one result changes no other result. Within a result the two ranges and four dates are different objects and start and end have no YMD in common, except that a date with a time has one Date for both bounds of its start and one for both bounds of its end, and that in a set open at both sides start and end are one DateRange; so Start.Lower.SetTime changes that date alone, or in these two cases also Start.Upper or End.Lower.", "quantifier": "every string, every heap, every later heap that extends it, every assignment to the objects of a result", "why_tests_cant": "The tests compare values of one parse at a time; they never assign through a result or look at pointers, so sharing is invisible to them.", "anchors": ["common/span.go:9-284", "common/range.go:472-499", "level0/date_and_time.go:78-101", "level2/set_representation.go:202-240", "date.go:21-24", "parser/parser.go:37-81"]}
{"id": "C78", "title": "ParseExponentialNotation for any text gives the whole part of the number", "statement": "common.ParseExponentialNotation called with any text: it fails with the error of big.ParseFloat exactly when the text is neither an infinity (Inf or inf with an optional sign) nor an optional sign, decimal digits with at most one point among them, and an optional decimal or binary exponent, with an exponent of at most 64 bits and a binary scale of at most 32 bits; it panics for the infinities; a zero of any form is the year 0; otherwise, if the number is below 2^63 and not within one part in 2^62 of a whole number (or, when the point is moved left by at most 55 places, not just below one), the result is its whole part with its sign, or Unsupported if that is above 9999. Moving the point and correcting the exponent does not change the result. On the texts that the parser hands to it the function is the one of the parser's model, with the same error texts.", "quantifier": "every text; numbers with any number of digits and any exponent, with the point moved left by at most 2^29 places (2^32 for numbers below one)", "why_tests_cant": "The tests only use a handful of exponential years through the parser; the exported function takes unboundedly many other texts, among them some that crash.", "anchors": ["common/exponential.go:9-26"]}
{"id": "C79", "title": "The server listens on the host and port of its command line, or says why not", "statement": "cmd/server-wasm for any command line: the program reaches http.ListenAndServe exactly when every flag before the first argument that is none sets host to any text or port to a whole number of Go's form within 64 bits, and the address is then the last host (localhost if none), a colon and the last port (8080 if none) in decimal; otherwise it stops at the first bad argument with the message for it, in which the value is quoted byte by byte or character by character, so that different faults have different messages. A whole number is decimal, or octal after a leading zero, or binary, octal or hexadecimal after 0b, 0o or 0x, with an optional sign and single underscores between digits (and after the base); a number is reported as out of range exactly when it does not fit in 64 bits or what is read of it reaches 2^64. The address is taken apart into the same host and port exactly when the host has no colon and no brackets, or is enclosed in one pair of brackets; with other hosts that have a colon (and do not begin with a bracket) the server fails with \"too many colons in address\". Refuted: that a port written with leading zeros is the decimal number.", "quantifier": "every list of arguments, each any list of bytes", "why_tests_cant": "There are no tests of the server; command lines are unboundedly many.", "anchors": ["cmd/server-wasm/main.go:13-41"]}
{"id": "C80", "title": "Marks of uncertainty and approximation never move the bounds of a date", "statement": "For every accepted string, the string without its marks (?, ~ and %) is accepted too, has the same outer bounds (times, texts and open or unknown flags) and compares alike in IsBefore, IsAfter and IsBetween, in any place; except for a complete date YYYY-MM-DD with one mark behind it, which has the bounds of its month YYYY-MM. Refuted for those: the bounds differ from those of the day, and a day that does not exist is accepted.", "quantifier": "every string that ParseString accepts; every other operand of a comparison", "why_tests_cant": "The tests check features and flags of a few marked dates; the relation between marked and unmarked strings is over all strings.", "anchors": ["parser/parser.go", "common/span.go", "common/range.go", "level1/season.go", "level1/qualified_date.go", "level2/qualification.go", "level2/interval.go"]}
{"id": "C81", "title": "Each half of an interval means what the same text means alone", "statement": "For every accepted string A/B that is not taken for a season: its two ranges carry the texts A and B; if A alone is accepted and not taken for a season, the first range has its first and last bound, with the same flags and precision; likewise B and the second range. Refuted: for strings taken for a season (2004-06/.. and the half 1985-04-1X), that every half is a date by itself, and that any two dates make an interval.", "quantifier": "every accepted string with a slash, every split of it", "why_tests_cant": "The tests check fixed intervals; this relates every interval with the parses of its two parts.", "anchors": ["parser/parser.go", "common/span.go", "level2/interval.go", "level1/extended_interval.go", "level1/season.go"]}
{"id": "C82", "title": "A set means its members, whatever their order and however often they are written", "statement": "For every two set strings with the same opening bracket whose pieces between commas are the same up to order: if one is accepted so is the other, and the results are equal but for the text they carry. For every two set strings whose pieces write the same members (any order, any number of times, alone or as ends of ranges, with the same dots at the ends), whatever the brackets: both accepted with the same outer bounds, or none. Refuted: that a permutation is always accepted when a member has dots (1990..,1985), and that the kind of bracket does not matter to the rest of the result.", "quantifier": "every set string, every permutation of its pieces, every other set string with the same members", "why_tests_cant": "The tests have a few fixed sets, each in one order; this relates every set with every other way of writing it.", "anchors": ["level2/set_representation.go", "parser/parser.go"]}
{"id": "C83", "title": "The texts of the bounds of a result are dates again, with the same bound", "statement": "For every accepted string and every bound of the result with a timestamp in the years -9999 to 9999 (which holds for every feature but date and time): the DateTime text of the bound is accepted as a date and time, all four bounds of which have the same timestamp, text and flags as the bound. For every feature but date and time, the calendar day of the bound, written as a complete date, is accepted as a date that contains the bound and is one day long. Refuted for times that leave the year 9999 on conversion to UTC.", "quantifier": "every accepted string, each of the four bounds", "why_tests_cant": "Needs the parse of the output for every input that parses.", "anchors": ["parser/parser.go", "level0/date_and_time.go", "level0/date.go", "common/span.go", "date.go"]}
{"id": "C84", "title": "Every result is that of an interval of two complete dates", "statement": "For every accepted string that is not a date and time: write the first bound as a complete date, as two dots if it is open or as nothing if it is unknown, and the last bound as a complete date; the interval of the two is accepted and has the same first and last bound. If the last bound is open and the first is a day of the year 0 or later, the set [day..] is accepted and has the same bounds. Refuted for day/.., which is taken for a season.", "quantifier": "every accepted string that is not a date and time", "why_tests_cant": "Relates every feature of every level with intervals of level 0 and 1, for all inputs.", "anchors": ["parser/parser.go", "level0/time_interval.go", "level1/extended_interval.go", "level1/season.go", "level2/set_representation.go"]}
{"id": "C85", "title": "A date within another date", "statement": "For every two strings of which the first lies within the second by the calendar (dates, intervals, times, groupings, seasons, masks of years, significant digits, sets and their members, open intervals, in any chain of these): both are accepted and the outer bounds of the first lie within those of the second. For every two accepted strings, one inside the other: whatever is after or before the outer one is after or before the inner one, and whatever the outer one is after or before so is the inner one; if the inner one lasts longer than an instant none of the two is after or before the other, and the inner one is between the outer one and itself. Refuted for an instant: the last second of a day is reported to be after that day.", "quantifier": "every two strings related by calendar inclusion; every two accepted strings of which one is inside the other, and every third string", "why_tests_cant": "The tests compare a few fixed pairs; this is about all pairs and triples.", "anchors": ["cmp/after.go", "cmp/before.go", "cmp/between.go", "edtf.go", "parser/parser.go"]}
{"id": "C86", "title": "The texts of string dates, ranges and qualifiers tell them apart", "statement": "StringDate.Equals holds exactly of equal dates. The String text of two StringDates or Qualifiers without an apostrophe in a component is the same only if they are equal. StringRangeFromYMD never produces a component with an apostrophe, so the texts of two ranges it produced are the same only if their dates are. Refuted: without the condition two different StringDates have the same text; and the text of a range leaves out marks and precision.", "quantifier": "every two string dates, qualifiers, and every two strings", "why_tests_cant": "Injectivity is about all pairs of values.", "anchors": ["common/range.go"]}
{"id": "C87", "title": "Accepted strings are plain text", "statement": "Every accepted string is made of digits, the letters T, Z, X, x, Y, y, E, e, S and the signs -+:/.,?~%[]{} only, or is a season by name with a year. None contains a quote, a backslash, an angle bracket or another byte with a meaning in markup, shells or queries, and the only control bytes are white space. Except for seasons by name the JSON string of an accepted string is the string between quotes. Every accepted string other than the empty string and two dots has a digit and at least four bytes. Each of the bytes listed occurs in some accepted string. Refuted: accepted strings need not be a single line, so the matches tool may print two lines for one argument.", "quantifier": "every accepted string and every byte of it", "why_tests_cant": "No list of inputs excludes a byte from all accepted strings; the level 2 test is not anchored at the end.", "anchors": ["re/re.go", "parser/parser.go", "level1/season.go", "cmd/matches/main.go"]}
{"id": "C88", "title": "Hiding digits never narrows a date", "statement": "If some digits of an accepted string are replaced by X and the result is accepted too, then the span of the first lies within the span of the second, provided that the first is not read as a season or grouping and that no month 01 to 09 has just its second digit replaced; what comes after or before the second then comes after or before the first. The same holds of codes of seasons and groupings that end in the year in which they begin. Where both strings are read as seasons their spans are the same. Refuted: 1985-04 is not within 1985-0X, the winter 1985-28 is not within 1985-XX, and 1985-12-1X is not within 1985-1X-1X.", "quantifier": "every two accepted strings of which one is the other with digits replaced by X", "why_tests_cant": "The claim relates the results of every pair of strings, over all masks, marks, intervals and features.", "anchors": ["common/range.go", "common/span.go", "level1/season.go", "level2/sub_year_grouping.go", "re/common.go"]}
{"id": "C89", "title": "The web page shows the date it parsed", "statement": "For every text typed into the page that is accepted without its line breaks, the page shows one member per line, indented by two blanks for each level, a JSON text that means exactly the encoded date and from which the same date is read back, so that equal pages mean equal dates. It shows a message exactly for refused texts, nothing exactly for texts on which the parser panics, and never says that the value is not JSON. In a visit each text gets the answer it would get alone until the first panic, after which nothing is shown any more. Refuted: the message does not tell the reason, it only holds the length of another message, and an accepted text typed after a panic is not answered.", "quantifier": "every text, every list of texts typed in a visit", "why_tests_cant": "There are no tests of the page; layout and numbers have to be right for every date, and answers depend on all texts typed before.", "anchors": ["app/server/www/javascript/index.js", "app/server/www/index.html", "cmd/parse-wasm/main.go"]}
{"id": "C90", "title": "The case of letters never changes a result", "statement": "If a text is accepted, the same text in capitals is accepted with the same bounds, level and feature; so two accepted texts that differ in the case of letters only have the same result. Texts accepted as seasons or exponential years in capitals are accepted in any case. Small letters occur in seasons, exponential years and significant digits only; in all other features the text in capitals is the only one accepted. Refuted: that every text whose capitals are accepted is accepted (y1985, 198x, 1950s2, times with t and z).", "quantifier": "every two texts of which one is the other in capitals", "why_tests_cant": "The claim relates the results of every pair of texts over all features, and the patterns mix case-sensitive and case-insensitive parts.", "anchors": ["re/level1.go", "re/level2.go", "level1/season.go", "level2/exponential_year.go", "level2/significant_digits.go", "parser/parser.go"]}
{"id": "C91", "title": "The server sends the files of the page, and only them", "statement": "For every path asked for, and every set of program names, following redirects ends after at most four, with one answer: walking along the parts of the path (empty parts and dots stay, two dots go up, never above the root) leads to the index page, one of the four files of the page, a program in wasm, one of the folders css, javascript and wasm, or to none of these, which is answered by 404; a last part index.html may follow anything that is there if no slash comes after it. Each file is sent without redirect at exactly one path. The three folders are listed, their names in order, at exactly one path each. No path leads to an internal error, and everything the index page asks for is sent. A reference in a page or location leads where walking along its parts from the folder of the page leads.", "quantifier": "every path, every list of program names", "why_tests_cant": "There are no tests of the server, and paths with dots, empty parts and slashes are infinitely many, each with its own chain of redirects.", "anchors": ["cmd/server-wasm/main.go", "app/server/www/www.go", "wasm/wasm.go", "app/server/www/index.html", "app/server/www/javascript/index.js"]}
{"id": "C92", "title": "Seasons, groupings, decades and all other runs of days join without gap", "statement": "For every text that names one run of days (level 0 dates and intervals, seasons by code or by name, sub-year groupings, decades, centuries, millennia, years and months with hidden parts, letter and exponential years, years with significant digits, dates with qualifiers) the bounds are the first second of the first day and the last second of the last day. So of any two such texts, of whatever levels, one begins in the second after the other ends exactly if its first day is the calendar day after the other's last, and After, Before and Between give the order of the days. The quarters, thirds, halves and months fill their year, the days their month, the years their decade, the decades their century, the centuries their millennium, and every season is followed by the next.", "quantifier": "every two texts of these forms, every year, decade, century, millennium and month in range", "why_tests_cant": "The claim relates pairs of texts of different levels and features; the tests parse single strings and check single bounds.", "anchors": ["level0/date.go", "level1/season.go", "level1/unspecified_digits.go", "level2/sub_year_grouping.go", "common/span.go", "calendar/calendar.go", "edtf.go", "cmp/after.go", "cmp/before.go", "cmp/between.go"]}
{"id": "C93", "title": "Escapes and queries in a request do not change what the server sends", "statement": "A request target is refused with 400 exactly if it holds a control byte or its path has a percent sign not followed by two hexadecimal digits. Otherwise the answer is the one to the decoded path: the same file, list or 404, and redirects keep the query (a lone question mark is dropped). So for every path and every query, the target that writes the path in the usual way ends, redirect by redirect, where the path does. The index page finds all it asks for whatever query it was asked with. This should hold for every way to write the path.", "quantifier": "every target that begins with a slash, every list of program names", "why_tests_cant": "There are no tests of the server; spellings of a path and queries are infinitely many, and the case that fails (an escape inside the folder name wasm) is one nobody writes by hand.", "anchors": ["cmd/server-wasm/main.go", "wasm/wasm.go", "app/server/www/www.go"]}
