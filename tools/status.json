{
 "C01": [
  "proved",
  "All histories of set/imply calls."
 ],
 "C02": [
  "proved",
  "All histories."
 ],
 "C03": [
  "partial",
  "False of the code for \"min\" (result.cpp:278 reads the key \"minute\"); exact for the other seven names."
 ],
 "C04": [
  "proved",
  "For every string that is not a published name."
 ],
 "C05": [
  "proved",
  "Every observer of the copy and of the assigned object."
 ],
 "C06": [
  "partial",
  "False of the code: getTag before setTag makes setTag ineffective. Exact characterisation over all call histories proved."
 ],
 "C08": [
  "partial",
  "False of the code: isPossibleDate is true for no real moment with its true weekday, and it throws on bad fields."
 ],
 "C09": [
  "proved",
  "All real moments 1400..9999, single results and ranges, rendering is injective."
 ],
 "C11": [
  "partial",
  "False of the code for the end of a range (the shifted end is computed and dropped); start proved for all offsets."
 ],
 "C07": [
  "proved",
  "All texts, references, parsers, environments and word tables."
 ],
 "C12": [
  "proved",
  "All thirteen parsers, all texts; number of rounds bounded by the length of the text."
 ],
 "C13": [
  "proved",
  "Texts shorter than 2^32 bytes (the index is an unsigned int)."
 ],
 "C14": [
  "partial",
  "Exact for eleven parsers (texts shorter than 2^32 bytes). False of the code for month names and clock times: the index includes the leading separator, the text does not; the exact displacement is proved."
 ],
 "C15": [
  "proved",
  "All texts, parsers, references."
 ],
 "C16": [
  "proved",
  "Stated for executions in which the invalidated iterators of parsers.cpp:51-55 still subtract to the match length (any other outcome is undefined behaviour)."
 ],
 "C17": [
  "partial",
  "False of the code: ENWeekExpressionParser inserts words into the table read by the deadline and relative parsers. Proved for the eleven other parsers over all histories, and for all thirteen when no earlier text contains half/few."
 ],
 "C18": [
  "proved",
  "All texts, real references inside 1400..9999."
 ],
 "C19": [
  "partial",
  "False of the code: at reference hour 0 'tomorrow' is the reference day itself (refuted by a theorem); proved for hours 1..23."
 ],
 "C20": [
  "proved",
  "All texts and real references."
 ],
 "C58": [
  "proved",
  "All texts in which the word stands between non-word characters."
 ],
 "C46": [
  "proved",
  "Every index-sorted list of non-empty results."
 ],
 "C47": [
  "partial",
  "False of the code for chains a-b-c (refuted by a theorem); proved: every dropped result is linked to a kept one by a chain of overlapping, not shorter results; exact for two results."
 ],
 "C48": [
  "partial",
  "False in one corner (a certain start offset is overwritten when the end has none, refuted); exact effect on every list of results and every text proved."
 ],
 "C49": [
  "partial",
  "False when anything follows the abbreviation (refuted); proved when the abbreviation ends the text, for every clock time."
 ],
 "C50": [
  "partial",
  "False on the last day of a month (the end gets day 32, printing throws; refuted). Fields of the merged result proved for all texts and results; next-day end proved when the date is not the last of its month."
 ],
 "C51": [
  "partial",
  "False when the last two results are merged (refuted); exact plan of merges for every list, and termination without exception for results without ends."
 ],
 "C52": [
  "partial",
  "False for ranges written backwards (refuted); proved for ranges in order."
 ],
 "C53": [
  "partial",
  "False (refuted): the last output is always repeated and an unmerged last result is lost; exact plan proved for every list."
 ],
 "C59": [
  "partial",
  "False for dates and times (the text between is ignored, proved for all texts); for ranges merging happens iff a connecting word occurs between."
 ],
 "C60": [
  "partial",
  "False (refuted): the merged result keeps the date's offset; exact offset and tag proved."
 ],
 "C23": [
  "proved",
  "Every result on every text, and exact recognition of the bare phrase. Month shifts above 32767 months (Boost's short) are outside the model."
 ],
 "C24": [
  "partial",
  "False of the code: the date does not follow when midnight is crossed. Proved: the clock part always right (up to 2^24 units), date = reference date."
 ],
 "C25": [
  "partial",
  "False of the code: the abbreviations add nothing. Proved: what they do, for every phrase."
 ],
 "C26": [
  "partial",
  "False of the code: large amounts throw. Proved: returns on every text with numbers of at most three digits, reference up to year 9000."
 ],
 "C27": [
  "proved",
  "All digit strings of the allowed lengths denoting a valid date of the years 0000..9999, in any reference; plus the round trip of every date."
 ],
 "C28": [
  "partial",
  "False of the code for offsets -00:01..-00:59 (the sign is lost); proved for every other text of the format."
 ],
 "C29": [
  "partial",
  "False of the code (30 February, hour 99 accepted); proved: every result of every text has month 1..12, day 1..31, year 0..9999 and two-digit time fields."
 ],
 "C61": [
  "proved",
  "All texts and references."
 ],
 "C21": [
  "partial",
  "False of the code: the pattern is ill-formed, std::regex_error is swallowed, and for every text nothing is recognised (the theorem proves exactly that)."
 ],
 "C22": [
  "proved",
  "For every match object with a weekday name and modifier, all references at least two weeks inside the range. (The code that calls it is unreachable through execute, see C21.)"
 ],
 "C30": [
  "proved",
  "Every result of every text, and exact dates of all thirteen spellings for every reference."
 ],
 "C31": [
  "partial",
  "False of the code: Black Friday is one day late (a Saturday). What the code computes is proved for every reference."
 ],
 "C32": [
  "partial",
  "False of the code: 'christmas' is never recognised in any text without a backslash (proved). Eve and Thanksgiving proved."
 ],
 "C62": [
  "proved",
  "All texts and references."
 ],
 "C33": [
  "partial",
  "False in corner cases: 'may.', years 0000-0099, 'jun', 1 BC/542 BE. Every result of every other text, bare names and name+year proved."
 ],
 "C34": [
  "partial",
  "False: 'may.' and reference years 1400/9999 throw; otherwise it returns on every text."
 ],
 "C56": [
  "proved",
  "All strings."
 ],
 "C57": [
  "proved",
  "Termination on all strings; every sequence of amounts and units (amounts up to 2^24, the float's exact range) in any letter case."
 ],
 "C63": [
  "partial",
  "False of the code: 'about 12 days' gives 2 days, because line 43 drops the length of the match from the front of the text instead of the text up to the end of the match. The text consisting of phrases only is C57."
 ],
 "C39": [
  "partial",
  "REFUTED as stated: C39_ago_refuted (\"5 minutes ago\" gives no result); C39_ago_never proves that no text without a backslash is ever recognised (the pattern requires a literal backslash after the unit). With the backslash the shift is right: C39_ago_clock_partial, C39_ago_date_partial."
 ],
 "C40": [
  "partial",
  "REFUTED as stated: C40_later_refuted; C40_later_never: no text without a backslash is recognised. With the backslash the shift is right: C40_later_clock_partial, C40_later_date_partial (later, from now; spaces as white space)."
 ],
 "C38": [
  "proved",
  "every result of every text after every history, and the phrases alone (digits up to INT_MAX, number words, default 1, this week)"
 ],
 "C41": [
  "proved",
  "phrases alone with any spaces in any letter case; C41_week_exists shows every reference in 1401..9998 qualifies; C41_last_week_throws the edge; C42_every_relative covers every result of every text"
 ],
 "C42": [
  "partial",
  "REFUTED as stated: C42_number_words_refuted (number words give no result, \"mins\" do not move). Proved for digits (up to 2^24), none, few, half and all full unit names (C42_next_*_partial), min/mins (C42_min_partial), and for every result of every text what it can say (C42_every_relative)."
 ],
 "C43": [
  "partial",
  "False of the code for ranges with pm on the end only (start hour up to 36) and for impossible times with seconds (refuted). Proved: every hour is 0..24, minute and second 0..59 for results without a second part; C65/C66 give the exact content of all results."
 ],
 "C44": [
  "partial",
  "False of the code (refuted for every range phrase without markers, and for every one with a marker on its end). Proved: texts without a range separator are free of these reads."
 ],
 "C45": [
  "partial",
  "False of the code for \"midnight to 1 pm\" and \"5 pm to 23\" (refuted). Proved: for all range phrases with a marker on at least one side, exact start and end."
 ],
 "C64": [
  "proved",
  "For every build in which the undefined reads yield values (benign); without that assumption see C44."
 ],
 "C65": [
  "proved",
  "Spaces only as white space between the parts; seconds have two digits, as the pattern demands."
 ],
 "C66": [
  "proved",
  "For environments in which a destroyed string, if readable, still holds its character. If both markers are missing the end hour is one of the readings allowed by an arbitrary uninitialised character."
 ],
 "C54": [
  "proved",
  "invalid message exactly when no parser recognises anything; otherwise the first refined result; today/now/tonight/tomorrow/yesterday for every reference, sort and letter case ('tomorrow' before 01:00 is the reference date, see C19)"
 ],
 "C55": [
  "partial",
  "refuted by \"noon\"; proved when no two results share an index and when one result spans the whole text"
 ],
 "C67": [
  "proved",
  ""
 ],
 "C35": [
  "partial",
  "False of the code for the year of 28/29 February (neighbouring leap years); month, day and year proved for every result, the year nearest for all other dates."
 ],
 "C36": [
  "partial",
  "False of the code when the year ends the text or a comma follows the day; proved for a month, a day and a four-digit year followed by a word, any spaces and any continuation."
 ],
 "C37": [
  "partial",
  "False of the code (29 February in common years, first and last supported year, dropped results); proved for all texts whose month-days exist in the reference year."
 ],
 "C68": [
  "proved",
  "All texts and references."
 ],
 "C69": [
  "proved",
  "All plain dates (MiddleSpec.plain_month_day) and all continuations beginning with a letter other than a, b, p, t."
 ],
 "C10": [
  "partial",
  "False of the code as stated: an ISO 30 February and \"25:12:30\" give results whose date cannot be rendered (C10_toDate_refuted). Proved parser by parser, for every text and every calm environment, that the results of the other shapes render."
 ],
 "C70": [
  "proved",
  ""
 ],
 "C71": [
  "proved",
  ""
 ],
 "C72": [
  "proved",
  "Non-modelled: the wall clock itself (a parameter). An exception leaving main is outcome Throw."
 ],
 "C73": [
  "proved",
  ""
 ],
 "C74": [
  "proved",
  ""
 ],
 "C75": [
  "proved",
  "A zone written in the text is stored but not applied to the printed time (toDate, see C11/C28)."
 ],
 "C76": [
  "proved",
  ""
 ],
 "C77": [
  "proved",
  ""
 ],
 "C78": [
  "proved",
  "Month alone: reference years 1401..9998 (outside them the program throws, C34)."
 ],
 "C79": [
  "proved",
  "Where the end carries the marker the parser reads a dangling reference (C44): the theorem then assumes that read yields the old value."
 ],
 "C80": [
  "proved",
  ""
 ],
 "C81": [
  "proved",
  "That the dates exist is necessary: C81_edge."
 ],
 "C82": [
  "partial",
  "False of the code (C82_program_answers_refuted). Proved for every sensible text (SenseSpec.v), references 1421..8999, every sort. Missing: texts that name days, times or amounts outside the calendar, ranges of days or times, and environments where stale memory is unreadable."
 ],
 "C83": [
  "proved",
  ""
 ],
 "C84": [
  "partial",
  "False of the code (C84_week_returns_refuted). Proved for every text whose written amounts name a day of the calendar, reference years 1401..9998."
 ],
 "C85": [
  "proved",
  ""
 ],
 "C86": [
  "proved",
  "The amount must fit an int: beyond it the code throws or wraps (C26)."
 ],
 "C87": [
  "proved",
  ""
 ],
 "C88": [
  "proved",
  ""
 ],
 "C89": [
  "proved",
  ""
 ],
 "C90": [
  "proved",
  ""
 ],
 "C91": [
  "proved",
  ""
 ],
 "C92": [
  "proved",
  ""
 ],
 "C93": [
  "proved",
  ""
 ],
 "C94": [
  "proved",
  ""
 ],
 "C95": [
  "proved",
  ""
 ],
 "C96": [
  "partial",
  "False as stated: a blank after today/tomorrow/yesterday loses the time, a holiday is not merged, a connecting word later in the text makes a range X - X, and a zone is dropped (C96_day_and_time_refuted). C96_day_and_time_partial: true when these do not occur."
 ],
 "C97": [
  "proved",
  "C97_backward_range: dates in the wrong order are printed as the first one twice. C97_implied_dates_differ: for \"in 5 days\" and weeks the claim would be false, they are outside the statement."
 ],
 "C98": [
  "proved",
  "The premise that the parser returns is needed: a dropped match earlier in the text is undefined behaviour (C37). no_stem_before gives a simple way to meet no_weekday_before."
 ],
 "C99": [
  "proved",
  "C99_case: one answer under the strictest environment; the range \"March 12 to 15\" is read by the clock parser too, which is undefined behaviour unless the environment is benign."
 ],
 "C100": [
  "proved",
  "Unlike C96 no exception is needed for a blank after the day: it belongs to the date's result."
 ],
 "C101": [
  "proved",
  ""
 ],
 "C102": [
  "proved",
  "The spellings \"jun\" and \"jun.\" are excepted: the pattern wants a backslash there (C33)."
 ],
 "C103": [
  "proved",
  ""
 ],
 "C104": [
  "proved",
  "Holidays are not among the phrases: they carry a time of their own and are not merged (C96_day_and_time_refuted)."
 ],
 "C105": [
  "proved",
  ""
 ],
 "C106": [
  "proved",
  ""
 ],
 "C107": [
  "proved",
  "The program looks for connecting words from where it believes the month to end (believed_rest), which is earlier than its real end by the length of the lead."
 ],
 "C108": [
  "proved",
  "C108_two_months is the general form: no connecting word where the program looks for one. A lead of more than two characters (several blanks) can expose letters of the name itself."
 ],
 "C109": [
  "proved",
  "Generalises C97 and C101 to mixed kinds."
 ],
 "C110": [
  "proved",
  ""
 ],
 "C111": [
  "proved",
  "As C18 says, tomorrow names the reference day itself when the reference hour is 0."
 ],
 "C112": [
  "proved",
  "Pins down the failure recorded in C96_day_and_time_refuted."
 ],
 "C113": [
  "proved",
  "The complement of C96: these days are not merged with a time because their hour is certain."
 ],
 "C114": [
  "proved",
  "The complement of C104."
 ],
 "C115": [
  "proved",
  "The complement of C96. The merged result leaves the consumed time in the list, and the range refiner searches the whole tail of the text for a connecting word."
 ],
 "C116": [
  "proved",
  "The complement of C104."
 ],
 "C117": [
  "proved",
  "The complement of C100 and C105."
 ],
 "C118": [
  "proved",
  "The complement of C106 and C107."
 ],
 "C119": [
  "proved",
  ""
 ],
 "C120": [
  "proved",
  "The complement of C119."
 ],
 "C121": [
  "proved",
  ""
 ],
 "C122": [
  "proved",
  ""
 ],
 "C123": [
  "proved",
  ""
 ],
 "C124": [
  "proved",
  ""
 ],
 "C125": [
  "proved",
  ""
 ],
 "C126": [
  "proved",
  "The complement of C125."
 ],
 "C127": [
  "proved",
  ""
 ],
 "C128": [
  "proved",
  ""
 ],
 "C129": [
  "proved",
  ""
 ],
 "C130": [
  "proved",
  ""
 ],
 "C131": [
  "proved",
  ""
 ],
 "C132": [
  "proved",
  ""
 ]
}