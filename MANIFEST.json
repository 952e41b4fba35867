{
 "claims": [
  {
   "property": "C01",
   "status": "proved",
   "theorems": [
    "C01_reads_return_last_write"
   ],
   "note": "All histories of set/imply calls."
  },
  {
   "property": "C02",
   "status": "proved",
   "theorems": [
    "C02_implied_never_overrides",
    "C02_set_discards_implied"
   ],
   "note": "All histories."
  },
  {
   "property": "C03",
   "status": "partial",
   "theorems": [
    "C03_certain_refuted",
    "C03_certain_partial",
    "C03_min_never_certain"
   ],
   "note": "False of the code for \"min\" (result.cpp:278 reads the key \"minute\"); exact for the other seven names."
  },
  {
   "property": "C04",
   "status": "proved",
   "theorems": [
    "C04_unknown_names_inert"
   ],
   "note": "For every string that is not a published name."
  },
  {
   "property": "C05",
   "status": "proved",
   "theorems": [
    "C05_copy_preserves",
    "C05_copy_behaves_alike"
   ],
   "note": "Every observer of the copy and of the assigned object."
  },
  {
   "property": "C06",
   "status": "partial",
   "theorems": [
    "C06_tags_refuted",
    "C06_tags_partial",
    "C06_other_tags"
   ],
   "note": "False of the code: getTag before setTag makes setTag ineffective. Exact characterisation over all call histories proved."
  },
  {
   "property": "C07",
   "status": "proved",
   "theorems": [
    "C07_results_carry_a_date",
    "C07_possible_iff"
   ],
   "note": "All texts, references, parsers, environments and word tables."
  },
  {
   "property": "C08",
   "status": "partial",
   "theorems": [
    "C08_possible_date_refuted",
    "C08_never_possible",
    "C08_possible_date_throws_refuted"
   ],
   "note": "False of the code: isPossibleDate is true for no real moment with its true weekday, and it throws on bad fields."
  },
  {
   "property": "C09",
   "status": "proved",
   "theorems": [
    "C09_toDate_start",
    "C09_toDate_range",
    "C09_written_injective"
   ],
   "note": "All real moments 1400..9999, single results and ranges, rendering is injective."
  },
  {
   "property": "C10",
   "status": "partial",
   "theorems": [
    "C10_toDate_refuted",
    "C10_casual_date_partial",
    "C10_casual_time_partial",
    "C10_week_partial",
    "C10_holiday_partial",
    "C10_deadline_partial",
    "C10_relative_partial",
    "C10_month_name_partial",
    "C10_month_day_partial",
    "C10_clock_partial",
    "C10_iso_partial"
   ],
   "note": "False of the code as stated: an ISO 30 February and \"25:12:30\" give results whose date cannot be rendered (C10_toDate_refuted). Proved parser by parser, for every text and every calm environment, that the results of the other shapes render."
  },
  {
   "property": "C11",
   "status": "partial",
   "theorems": [
    "C11_zone_shift_refuted",
    "C11_zone_shift_start",
    "C11_zone_shift_partial"
   ],
   "note": "False of the code for the end of a range (the shifted end is computed and dropped); start proved for all offsets."
  },
  {
   "property": "C12",
   "status": "proved",
   "theorems": [
    "C12_execute_terminates",
    "C12_rounds_bounded",
    "C12_matches_nonempty"
   ],
   "note": "All thirteen parsers, all texts; number of rounds bounded by the length of the text."
  },
  {
   "property": "C13",
   "status": "proved",
   "theorems": [
    "C13_results_in_order",
    "C13_consecutive"
   ],
   "note": "Texts shorter than 2^32 bytes (the index is an unsigned int)."
  },
  {
   "property": "C14",
   "status": "partial",
   "theorems": [
    "C14_located",
    "C14_located_refuted",
    "C14_clock_refuted",
    "C14_located_partial"
   ],
   "note": "Exact for eleven parsers (texts shorter than 2^32 bytes). False of the code for month names and clock times: the index includes the leading separator, the text does not; the exact displacement is proved."
  },
  {
   "property": "C15",
   "status": "proved",
   "theorems": [
    "C15_case_ignored",
    "C15_caller_string_lowered"
   ],
   "note": "All texts, parsers, references."
  },
  {
   "property": "C16",
   "status": "proved",
   "theorems": [
    "C16_visits_every_match",
    "C16_leftmost",
    "C16_no_match_missed"
   ],
   "note": "Stated for executions in which the invalidated iterators of parsers.cpp:51-55 still subtract to the match length (any other outcome is undefined behaviour)."
  },
  {
   "property": "C17",
   "status": "partial",
   "theorems": [
    "C17_history_refuted",
    "C17_history_free",
    "C17_history_partial"
   ],
   "note": "False of the code: ENWeekExpressionParser inserts words into the table read by the deadline and relative parsers. Proved for the eleven other parsers over all histories, and for all thirteen when no earlier text contains half/few."
  },
  {
   "property": "C18",
   "status": "proved",
   "theorems": [
    "C18_casual_dates",
    "C18_casual_dates_total"
   ],
   "note": "All texts, real references inside 1400..9999."
  },
  {
   "property": "C19",
   "status": "partial",
   "theorems": [
    "C19_tomorrow_refuted",
    "C19_tomorrow_partial"
   ],
   "note": "False of the code: at reference hour 0 'tomorrow' is the reference day itself (refuted by a theorem); proved for hours 1..23."
  },
  {
   "property": "C20",
   "status": "proved",
   "theorems": [
    "C20_casual_times"
   ],
   "note": "All texts and real references."
  },
  {
   "property": "C21",
   "status": "partial",
   "theorems": [
    "C21_weekdays_refuted"
   ],
   "note": "False of the code: the pattern is ill-formed, std::regex_error is swallowed, and for every text nothing is recognised (the theorem proves exactly that)."
  },
  {
   "property": "C22",
   "status": "proved",
   "theorems": [
    "C22_weekday_resolution"
   ],
   "note": "For every match object with a weekday name and modifier, all references at least two weeks inside the range. (The code that calls it is unreachable through execute, see C21.)"
  },
  {
   "property": "C23",
   "status": "proved",
   "theorems": [
    "C23_every_deadline",
    "C23_deadline_date",
    "C23_half_day"
   ],
   "note": "Every result on every text, and exact recognition of the bare phrase. Month shifts above 32767 months (Boost's short) are outside the model."
  },
  {
   "property": "C24",
   "status": "partial",
   "theorems": [
    "C24_clock_deadline_refuted",
    "C24_clock_deadline_partial"
   ],
   "note": "False of the code: the date does not follow when midnight is crossed. Proved: the clock part always right (up to 2^24 units), date = reference date."
  },
  {
   "property": "C25",
   "status": "partial",
   "theorems": [
    "C25_abbreviations_refuted",
    "C25_abbreviations_partial"
   ],
   "note": "False of the code: the abbreviations add nothing. Proved: what they do, for every phrase."
  },
  {
   "property": "C26",
   "status": "partial",
   "theorems": [
    "C26_deadline_throws_refuted",
    "C26_deadline_returns_partial"
   ],
   "note": "False of the code: large amounts throw. Proved: returns on every text with numbers of at most three digits, reference up to year 9000."
  },
  {
   "property": "C27",
   "status": "proved",
   "theorems": [
    "C27_iso_dates",
    "C27_iso_round_trip"
   ],
   "note": "All digit strings of the allowed lengths denoting a valid date of the years 0000..9999, in any reference; plus the round trip of every date."
  },
  {
   "property": "C28",
   "status": "partial",
   "theorems": [
    "C28_iso_offset_refuted",
    "C28_iso_times_partial"
   ],
   "note": "False of the code for offsets -00:01..-00:59 (the sign is lost); proved for every other text of the format."
  },
  {
   "property": "C29",
   "status": "partial",
   "theorems": [
    "C29_impossible_dates_refuted",
    "C29_impossible_dates_partial"
   ],
   "note": "False of the code (30 February, hour 99 accepted); proved: every result of every text has month 1..12, day 1..31, year 0..9999 and two-digit time fields."
  },
  {
   "property": "C30",
   "status": "proved",
   "theorems": [
    "C30_every_holiday",
    "C30_holiday_dates"
   ],
   "note": "Every result of every text, and exact dates of all thirteen spellings for every reference."
  },
  {
   "property": "C31",
   "status": "partial",
   "theorems": [
    "C31_black_friday_refuted",
    "C31_black_friday_partial"
   ],
   "note": "False of the code: Black Friday is one day late (a Saturday). What the code computes is proved for every reference."
  },
  {
   "property": "C32",
   "status": "partial",
   "theorems": [
    "C32_christmas_refuted",
    "C32_christmas_never",
    "C32_eve_and_thanksgiving_partial"
   ],
   "note": "False of the code: 'christmas' is never recognised in any text without a backslash (proved). Eve and Thanksgiving proved."
  },
  {
   "property": "C33",
   "status": "partial",
   "theorems": [
    "C33_month_refuted",
    "C33_every_month_partial",
    "C33_month_alone_partial",
    "C33_month_year_partial"
   ],
   "note": "False in corner cases: 'may.', years 0000-0099, 'jun', 1 BC/542 BE. Every result of every other text, bare names and name+year proved."
  },
  {
   "property": "C34",
   "status": "partial",
   "theorems": [
    "C34_month_returns_refuted",
    "C34_month_returns_partial"
   ],
   "note": "False: 'may.' and reference years 1400/9999 throw; otherwise it returns on every text."
  },
  {
   "property": "C35",
   "status": "partial",
   "theorems": [
    "C35_nearest_refuted",
    "C35_month_day_partial"
   ],
   "note": "False of the code for the year of 28/29 February (neighbouring leap years); month, day and year proved for every result, the year nearest for all other dates."
  },
  {
   "property": "C36",
   "status": "partial",
   "theorems": [
    "C36_written_year_refuted",
    "C36_written_year_partial"
   ],
   "note": "False of the code when the year ends the text or a comma follows the day; proved for a month, a day and a four-digit year followed by a word, any spaces and any continuation."
  },
  {
   "property": "C37",
   "status": "partial",
   "theorems": [
    "C37_month_day_returns_refuted",
    "C37_month_day_returns_partial",
    "C37_month_day_benign_partial"
   ],
   "note": "False of the code (29 February in common years, first and last supported year, dropped results); proved for all texts whose month-days exist in the reference year."
  },
  {
   "property": "C38",
   "status": "proved",
   "theorems": [
    "C38_every_week",
    "C38_week_phrase",
    "C38_this_week"
   ],
   "note": "every result of every text after every history, and the phrases alone (digits up to INT_MAX, number words, default 1, this week)"
  },
  {
   "property": "C39",
   "status": "partial",
   "theorems": [
    "C39_ago_refuted",
    "C39_ago_never",
    "C39_ago_clock_partial",
    "C39_ago_date_partial"
   ],
   "note": "REFUTED as stated: C39_ago_refuted (\"5 minutes ago\" gives no result); C39_ago_never proves that no text without a backslash is ever recognised (the pattern requires a literal backslash after the unit). With the backslash the shift is right: C39_ago_clock_partial, C39_ago_date_partial."
  },
  {
   "property": "C40",
   "status": "partial",
   "theorems": [
    "C40_later_refuted",
    "C40_later_never",
    "C40_later_clock_partial",
    "C40_later_date_partial"
   ],
   "note": "REFUTED as stated: C40_later_refuted; C40_later_never: no text without a backslash is recognised. With the backslash the shift is right: C40_later_clock_partial, C40_later_date_partial (later, from now; spaces as white space)."
  },
  {
   "property": "C41",
   "status": "proved",
   "theorems": [
    "C41_this_week",
    "C41_this_month",
    "C41_this_year",
    "C41_week_exists",
    "C41_last_week_throws"
   ],
   "note": "phrases alone with any spaces in any letter case; C41_week_exists shows every reference in 1401..9998 qualifies; C41_last_week_throws the edge; C42_every_relative covers every result of every text"
  },
  {
   "property": "C42",
   "status": "partial",
   "theorems": [
    "C42_every_relative",
    "C42_number_words_refuted",
    "C42_next_date_partial",
    "C42_next_clock_partial",
    "C42_next_half_day_partial",
    "C42_min_partial"
   ],
   "note": "REFUTED as stated: C42_number_words_refuted (number words give no result, \"mins\" do not move). Proved for digits (up to 2^24), none, few, half and all full unit names (C42_next_*_partial), min/mins (C42_min_partial), and for every result of every text what it can say (C42_every_relative)."
  },
  {
   "property": "C43",
   "status": "partial",
   "theorems": [
    "C43_hours_partial",
    "C43_hours_refuted"
   ],
   "note": "False of the code for ranges with pm on the end only (start hour up to 36) and for impossible times with seconds (refuted). Proved: every hour is 0..24, minute and second 0..59 for results without a second part; C65/C66 give the exact content of all results."
  },
  {
   "property": "C44",
   "status": "partial",
   "theorems": [
    "C44_ranges_refuted",
    "C44_no_range_partial"
   ],
   "note": "False of the code (refuted for every range phrase without markers, and for every one with a marker on its end). Proved: texts without a range separator are free of these reads."
  },
  {
   "property": "C45",
   "status": "partial",
   "theorems": [
    "C45_range_partial",
    "C45_ranges_refuted"
   ],
   "note": "False of the code for \"midnight to 1 pm\" and \"5 pm to 23\" (refuted). Proved: for all range phrases with a marker on at least one side, exact start and end."
  },
  {
   "property": "C46",
   "status": "proved",
   "theorems": [
    "C46_overlap_removal"
   ],
   "note": "Every index-sorted list of non-empty results."
  },
  {
   "property": "C47",
   "status": "partial",
   "theorems": [
    "C47_dropped_refuted",
    "C47_dropped_partial",
    "C47_two_results"
   ],
   "note": "False of the code for chains a-b-c (refuted by a theorem); proved: every dropped result is linked to a kept one by a chain of overlapping, not shorter results; exact for two results."
  },
  {
   "property": "C48",
   "status": "partial",
   "theorems": [
    "C48_zone_refiner_partial",
    "C48_zone_refiner_refuted"
   ],
   "note": "False in one corner (a certain start offset is overwritten when the end has none, refuted); exact effect on every list of results and every text proved."
  },
  {
   "property": "C49",
   "status": "partial",
   "theorems": [
    "C49_zone_honoured_refuted",
    "C49_zone_honoured_partial"
   ],
   "note": "False when anything follows the abbreviation (refuted); proved when the abbreviation ends the text, for every clock time."
  },
  {
   "property": "C50",
   "status": "partial",
   "theorems": [
    "C50_merge_partial",
    "C50_merge_moment",
    "C50_next_day_partial",
    "C50_next_day_refuted"
   ],
   "note": "False on the last day of a month (the end gets day 32, printing throws; refuted). Fields of the merged result proved for all texts and results; next-day end proved when the date is not the last of its month."
  },
  {
   "property": "C51",
   "status": "partial",
   "theorems": [
    "C51_once_refuted",
    "C51_once_partial",
    "C51_returns"
   ],
   "note": "False when the last two results are merged (refuted); exact plan of merges for every list, and termination without exception for results without ends."
  },
  {
   "property": "C52",
   "status": "partial",
   "theorems": [
    "C52_order_refuted",
    "C52_order_partial"
   ],
   "note": "False for ranges written backwards (refuted); proved for ranges in order."
  },
  {
   "property": "C53",
   "status": "partial",
   "theorems": [
    "C53_once_refuted",
    "C53_once_partial",
    "C53_short"
   ],
   "note": "False (refuted): the last output is always repeated and an unmerged last result is lost; exact plan proved for every list."
  },
  {
   "property": "C54",
   "status": "proved",
   "theorems": [
    "C54_invalid_iff_nothing",
    "C54_prints_first",
    "C54_whole_text_wins",
    "C54_lone_result",
    "C54_today",
    "C54_now",
    "C54_tonight",
    "C54_tomorrow",
    "C54_yesterday"
   ],
   "note": "invalid message exactly when no parser recognises anything; otherwise the first refined result; today/now/tonight/tomorrow/yesterday for every reference, sort and letter case ('tomorrow' before 01:00 is the reference date, see C19)"
  },
  {
   "property": "C55",
   "status": "partial",
   "theorems": [
    "C55_determined_refuted",
    "C55_determined_partial",
    "C55_whole_text"
   ],
   "note": "refuted by \"noon\"; proved when no two results share an index and when one result spans the whole text"
  },
  {
   "property": "C56",
   "status": "proved",
   "theorems": [
    "C56_ordinal_words",
    "C56_nothing_else",
    "C56_range",
    "C56_every_number"
   ],
   "note": "All strings."
  },
  {
   "property": "C57",
   "status": "proved",
   "theorems": [
    "C57_terminates",
    "C57_phrases_collected",
    "C57_one_phrase"
   ],
   "note": "Termination on all strings; every sequence of amounts and units (amounts up to 2^24, the float's exact range) in any letter case."
  },
  {
   "property": "C58",
   "status": "proved",
   "theorems": [
    "C58_casual_words_found"
   ],
   "note": "All texts in which the word stands between non-word characters."
  },
  {
   "property": "C59",
   "status": "partial",
   "theorems": [
    "C59_between_refuted",
    "C59_between_partial"
   ],
   "note": "False for dates and times (the text between is ignored, proved for all texts); for ranges merging happens iff a connecting word occurs between."
  },
  {
   "property": "C60",
   "status": "partial",
   "theorems": [
    "C60_zone_merge_refuted",
    "C60_zone_merge_partial"
   ],
   "note": "False (refuted): the merged result keeps the date's offset; exact offset and tag proved."
  },
  {
   "property": "C61",
   "status": "proved",
   "theorems": [
    "C61_iso_returns"
   ],
   "note": "All texts and references."
  },
  {
   "property": "C62",
   "status": "proved",
   "theorems": [
    "C62_holidays_return"
   ],
   "note": "All texts and references."
  },
  {
   "property": "C63",
   "status": "partial",
   "theorems": [
    "C63_refuted"
   ],
   "note": "False of the code: 'about 12 days' gives 2 days, because line 43 drops the length of the match from the front of the text instead of the text up to the end of the match. The text consisting of phrases only is C57."
  },
  {
   "property": "C64",
   "status": "proved",
   "theorems": [
    "C64_clock_total"
   ],
   "note": "For every build in which the undefined reads yield values (benign); without that assumption see C44."
  },
  {
   "property": "C65",
   "status": "proved",
   "theorems": [
    "C65_clock_phrase",
    "C65_no_such_time"
   ],
   "note": "Spaces only as white space between the parts; seconds have two digits, as the pattern demands."
  },
  {
   "property": "C66",
   "status": "proved",
   "theorems": [
    "C66_every_time"
   ],
   "note": "For environments in which a destroyed string, if readable, still holds its character. If both markers are missing the end hour is one of the readings allowed by an arbitrary uninitialised character."
  },
  {
   "property": "C67",
   "status": "proved",
   "theorems": [
    "C67_parsers_independent",
    "C67_text_nonempty"
   ],
   "note": ""
  },
  {
   "property": "C68",
   "status": "proved",
   "theorems": [
    "C68_month_day_results"
   ],
   "note": "All texts and references."
  },
  {
   "property": "C69",
   "status": "proved",
   "theorems": [
    "C69_month_day_first",
    "C69_month_day_found"
   ],
   "note": "All plain dates (MiddleSpec.plain_month_day) and all continuations beginning with a letter other than a, b, p, t."
  },
  {
   "property": "C70",
   "status": "proved",
   "theorems": [
    "C70_reference",
    "C70_impossible_dates",
    "C70_rollover",
    "C70_time_required",
    "C70_documented_format"
   ],
   "note": ""
  },
  {
   "property": "C71",
   "status": "proved",
   "theorems": [
    "C71_printed_dates_read_back"
   ],
   "note": ""
  },
  {
   "property": "C72",
   "status": "proved",
   "theorems": [
    "C72_usage",
    "C72_now_is_the_reference",
    "C72_written_reference",
    "C72_now_echoes",
    "C72_bad_reference"
   ],
   "note": "Non-modelled: the wall clock itself (a parameter). An exception leaving main is outcome Throw."
  },
  {
   "property": "C73",
   "status": "proved",
   "theorems": [
    "C73_only_own_tag",
    "C73_no_refiner_tag",
    "C73_tag_present"
   ],
   "note": ""
  },
  {
   "property": "C74",
   "status": "proved",
   "theorems": [
    "C74_deadline_date",
    "C74_deadline_clock",
    "C74_half_day"
   ],
   "note": ""
  },
  {
   "property": "C75",
   "status": "proved",
   "theorems": [
    "C75_iso_date",
    "C75_iso_time"
   ],
   "note": "A zone written in the text is stored but not applied to the printed time (toDate, see C11/C28)."
  },
  {
   "property": "C76",
   "status": "proved",
   "theorems": [
    "C76_weeks",
    "C76_this_week"
   ],
   "note": ""
  },
  {
   "property": "C77",
   "status": "proved",
   "theorems": [
    "C77_clock"
   ],
   "note": ""
  },
  {
   "property": "C78",
   "status": "proved",
   "theorems": [
    "C78_month_alone",
    "C78_month_year"
   ],
   "note": "Month alone: reference years 1401..9998 (outside them the program throws, C34)."
  },
  {
   "property": "C79",
   "status": "proved",
   "theorems": [
    "C79_clock_range"
   ],
   "note": "Where the end carries the marker the parser reads a dangling reference (C44): the theorem then assumes that read yields the old value."
  },
  {
   "property": "C80",
   "status": "proved",
   "theorems": [
    "C80_holidays"
   ],
   "note": ""
  },
  {
   "property": "C81",
   "status": "proved",
   "theorems": [
    "C81_refiners_return"
   ],
   "note": "That the dates exist is necessary: C81_edge."
  },
  {
   "property": "C82",
   "status": "partial",
   "theorems": [
    "C82_program_answers_refuted",
    "C82_program_answers_partial"
   ],
   "note": "False of the code (C82_program_answers_refuted). Proved for every sensible text (SenseSpec.v), references 1421..8999, every sort. Missing: texts that name days, times or amounts outside the calendar, ranges of days or times, and environments where stale memory is unreadable."
  },
  {
   "property": "C83",
   "status": "proved",
   "theorems": [
    "C83_every_iso"
   ],
   "note": ""
  },
  {
   "property": "C84",
   "status": "partial",
   "theorems": [
    "C84_week_returns_refuted",
    "C84_week_returns_partial"
   ],
   "note": "False of the code (C84_week_returns_refuted). Proved for every text whose written amounts name a day of the calendar, reference years 1401..9998."
  },
  {
   "property": "C85",
   "status": "proved",
   "theorems": [
    "C85_casual_dates_stand"
   ],
   "note": ""
  },
  {
   "property": "C86",
   "status": "proved",
   "theorems": [
    "C86_deadlines_stand"
   ],
   "note": "The amount must fit an int: beyond it the code throws or wraps (C26)."
  },
  {
   "property": "C87",
   "status": "proved",
   "theorems": [
    "C87_iso_stand"
   ],
   "note": ""
  },
  {
   "property": "C88",
   "status": "proved",
   "theorems": [
    "C88_holidays_stand"
   ],
   "note": ""
  },
  {
   "property": "C89",
   "status": "proved",
   "theorems": [
    "C89_weeks_stand",
    "C89_this_week_stands"
   ],
   "note": ""
  },
  {
   "property": "C90",
   "status": "proved",
   "theorems": [
    "C90_program_finds"
   ],
   "note": ""
  },
  {
   "property": "C91",
   "status": "proved",
   "theorems": [
    "C91_times_stand",
    "C91_this_time_stands"
   ],
   "note": ""
  },
  {
   "property": "C92",
   "status": "proved",
   "theorems": [
    "C92_sentence_answer"
   ],
   "note": ""
  },
  {
   "property": "C93",
   "status": "proved",
   "theorems": [
    "C93_clock_times_stand"
   ],
   "note": ""
  },
  {
   "property": "C94",
   "status": "proved",
   "theorems": [
    "C94_clock_answer"
   ],
   "note": ""
  },
  {
   "property": "C95",
   "status": "proved",
   "theorems": [
    "C95_zone_answer"
   ],
   "note": ""
  },
  {
   "property": "C96",
   "status": "partial",
   "theorems": [
    "C96_day_and_time_partial",
    "C96_day_and_time_refuted"
   ],
   "note": "False as stated: a blank after today/tomorrow/yesterday loses the time, a holiday is not merged, a connecting word later in the text makes a range X - X, and a zone is dropped (C96_day_and_time_refuted). C96_day_and_time_partial: true when these do not occur."
  },
  {
   "property": "C97",
   "status": "proved",
   "theorems": [
    "C97_range_answer",
    "C97_backward_range",
    "C97_implied_dates_differ"
   ],
   "note": "C97_backward_range: dates in the wrong order are printed as the first one twice. C97_implied_dates_differ: for \"in 5 days\" and weeks the claim would be false, they are outside the statement."
  },
  {
   "property": "C98",
   "status": "proved",
   "theorems": [
    "C98_month_days_stand"
   ],
   "note": "The premise that the parser returns is needed: a dropped match earlier in the text is undefined behaviour (C37). no_stem_before gives a simple way to meet no_weekday_before."
  },
  {
   "property": "C99",
   "status": "proved",
   "theorems": [
    "C99_month_day_answer"
   ],
   "note": "C99_case: one answer under the strictest environment; the range \"March 12 to 15\" is read by the clock parser too, which is undefined behaviour unless the environment is benign."
  },
  {
   "property": "C100",
   "status": "proved",
   "theorems": [
    "C100_month_day_and_time"
   ],
   "note": "Unlike C96 no exception is needed for a blank after the day: it belongs to the date's result."
  },
  {
   "property": "C101",
   "status": "proved",
   "theorems": [
    "C101_month_day_range"
   ],
   "note": ""
  },
  {
   "property": "C102",
   "status": "proved",
   "theorems": [
    "C102_month_names_stand"
   ],
   "note": "The spellings \"jun\" and \"jun.\" are excepted: the pattern wants a backslash there (C33)."
  },
  {
   "property": "C103",
   "status": "proved",
   "theorems": [
    "C103_month_answer"
   ],
   "note": ""
  },
  {
   "property": "C104",
   "status": "proved",
   "theorems": [
    "C104_time_and_day"
   ],
   "note": "Holidays are not among the phrases: they carry a time of their own and are not merged (C96_day_and_time_refuted)."
  },
  {
   "property": "C105",
   "status": "proved",
   "theorems": [
    "C105_time_and_month_day"
   ],
   "note": ""
  },
  {
   "property": "C106",
   "status": "proved",
   "theorems": [
    "C106_month_and_time"
   ],
   "note": ""
  },
  {
   "property": "C107",
   "status": "proved",
   "theorems": [
    "C107_time_and_month"
   ],
   "note": "The program looks for connecting words from where it believes the month to end (believed_rest), which is earlier than its real end by the length of the lead."
  },
  {
   "property": "C108",
   "status": "proved",
   "theorems": [
    "C108_two_months",
    "C108_no_month_ranges"
   ],
   "note": "C108_two_months is the general form: no connecting word where the program looks for one. A lead of more than two characters (several blanks) can expose letters of the name itself."
  },
  {
   "property": "C109",
   "status": "proved",
   "theorems": [
    "C109_two_dates_range"
   ],
   "note": "Generalises C97 and C101 to mixed kinds."
  },
  {
   "property": "C110",
   "status": "proved",
   "theorems": [
    "C110_first_date_only"
   ],
   "note": ""
  },
  {
   "property": "C111",
   "status": "proved",
   "theorems": [
    "C111_blanks_taken",
    "C111_day_words_time"
   ],
   "note": "As C18 says, tomorrow names the reference day itself when the reference hour is 0."
  },
  {
   "property": "C112",
   "status": "proved",
   "theorems": [
    "C112_day_or_time"
   ],
   "note": "Pins down the failure recorded in C96_day_and_time_refuted."
  },
  {
   "property": "C113",
   "status": "proved",
   "theorems": [
    "C113_own_hour_stays"
   ],
   "note": "The complement of C96: these days are not merged with a time because their hour is certain."
  },
  {
   "property": "C114",
   "status": "proved",
   "theorems": [
    "C114_clock_stays"
   ],
   "note": "The complement of C104."
  },
  {
   "property": "C115",
   "status": "proved",
   "theorems": [
    "C115_connecting_word_after"
   ],
   "note": "The complement of C96. The merged result leaves the consumed time in the list, and the range refiner searches the whole tail of the text for a connecting word."
  },
  {
   "property": "C116",
   "status": "proved",
   "theorems": [
    "C116_connecting_word_after_the_day"
   ],
   "note": "The complement of C104."
  },
  {
   "property": "C117",
   "status": "proved",
   "theorems": [
    "C117_month_day_and_time_and_word",
    "C117_time_and_month_day_and_word"
   ],
   "note": "The complement of C100 and C105."
  },
  {
   "property": "C118",
   "status": "proved",
   "theorems": [
    "C118_month_and_time_and_word",
    "C118_time_and_month_and_word"
   ],
   "note": "The complement of C106 and C107."
  },
  {
   "property": "C119",
   "status": "proved",
   "theorems": [
    "C119_two_times_linked"
   ],
   "note": ""
  },
  {
   "property": "C120",
   "status": "proved",
   "theorems": [
    "C120_two_times_first"
   ],
   "note": "The complement of C119."
  },
  {
   "property": "C121",
   "status": "proved",
   "theorems": [
    "C121_day_then_hint"
   ],
   "note": ""
  },
  {
   "property": "C122",
   "status": "proved",
   "theorems": [
    "C122_hint_then_day"
   ],
   "note": ""
  },
  {
   "property": "C123",
   "status": "proved",
   "theorems": [
    "C123_day_hint_and_word"
   ],
   "note": ""
  },
  {
   "property": "C124",
   "status": "proved",
   "theorems": [
    "C124_hint_day_and_word"
   ],
   "note": ""
  },
  {
   "property": "C125",
   "status": "proved",
   "theorems": [
    "C125_range_with_own_hour"
   ],
   "note": ""
  },
  {
   "property": "C126",
   "status": "proved",
   "theorems": [
    "C126_first_with_own_hour"
   ],
   "note": "The complement of C125."
  },
  {
   "property": "C127",
   "status": "proved",
   "theorems": [
    "C127_phrase_then_time"
   ],
   "note": ""
  },
  {
   "property": "C128",
   "status": "proved",
   "theorems": [
    "C128_time_then_phrase"
   ],
   "note": ""
  },
  {
   "property": "C129",
   "status": "proved",
   "theorems": [
    "C129_connecting_word_after_the_time"
   ],
   "note": ""
  },
  {
   "property": "C130",
   "status": "proved",
   "theorems": [
    "C130_connecting_word_after_the_phrase"
   ],
   "note": ""
  },
  {
   "property": "C131",
   "status": "proved",
   "theorems": [
    "C131_deadline_keeps_the_date"
   ],
   "note": ""
  },
  {
   "property": "C132",
   "status": "proved",
   "theorems": [
    "C132_half_a_day_crosses_midnight"
   ],
   "note": ""
  }
 ]
}