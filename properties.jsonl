{"id": "C01", "title": "Component reads return the last write", "statement": "After any sequence of setX(v) and implyComponent(name,v) calls on a fresh ParsedComponents, getX() returns the value of the last setX if there was one, otherwise the value of the last implyComponent of that field, otherwise 0; the eight fields (year, month, mday, wday, hour, min, sec, tzoffset) never interfere with one another.", "quantifier": "all finite histories of set/imply calls, all int values, all eight fields", "why_tests_cant": "the number of call histories is unbounded; tests sample a handful", "anchors": ["src/result.cpp:53-258 ParsedComponents::get*/set*/implyComponent", "src/result.hpp:17-54"]}
{"id": "C02", "title": "Implied values never override certain ones", "statement": "Once a field has been set, no later sequence of implyComponent calls (with any name and any value) changes what any getter returns for that field; and setting a field discards any earlier implied value for good.", "quantifier": "all histories containing a set followed by arbitrarily many implies", "why_tests_cant": "universal over histories", "anchors": ["src/result.cpp:132-258"]}
{"id": "C03", "title": "isCertain tells exactly which fields were set", "statement": "isCertain(name) is true exactly when the named field has been assigned by a set call since construction, for each of the eight published field names.", "quantifier": "all histories and all eight names", "why_tests_cant": "universal over histories; a per-name slip (minutes) is invisible unless that name is queried", "anchors": ["src/result.cpp:260-289 ParsedComponents::isCertain"]}
{"id": "C04", "title": "Unknown component names are inert", "statement": "implyComponent with a name that is not one of the eight published names changes no getter and no isCertain answer, and isCertain of such a name is false.", "quantifier": "all strings other than the eight names, all states", "why_tests_cant": "the set of bad names is infinite", "anchors": ["src/result.cpp:194-289"]}
{"id": "C05", "title": "Copying or assigning a result preserves it", "statement": "Copy-constructing or assigning a ParsedResult yields an object with the same index, text, anchor, tags, end flag and start components, and the same end components whenever the result has an end; toDate, hasPossibleDates, isEmpty and getTag answer the same on the copy as on the original, also after the same further setTag/getTag calls on both.", "quantifier": "all ParsedResult states", "why_tests_cant": "results are copied dozens of times in the pipeline; all states must survive", "anchors": ["src/result.cpp:372-384 copy ctor", "src/result.cpp:484-494 operator="]}
{"id": "C06", "title": "Tags can be set and read back", "statement": "After setTag(t), getTag(t) is true, and setTag(t) never changes getTag(u) for u different from t, whatever calls came before.", "quantifier": "all histories of setTag/getTag calls, all pairs of tags", "why_tests_cant": "the failing history (a query before the set) only appears for particular interleavings of queries and sets", "anchors": ["src/result.cpp:460-463 setTag", "src/result.cpp:479-482 getTag"]}
{"id": "C07", "title": "Parsers only return results that carry a date or time", "statement": "Every result returned by any parser's execute() satisfies hasPossibleDates(): some of year, month, mday, hour, minute, second is non-zero, or the result has an end date; in particular no empty result is ever returned.", "quantifier": "all texts, all reference times, all thirteen parsers", "why_tests_cant": "universal over texts", "anchors": ["src/parsers/parsers.cpp:25-66 Parser::execute", "src/result.cpp:386-398 hasPossibleDates"]}
{"id": "C08", "title": "isPossibleDate accepts exactly the real calendar moments", "statement": "For components whose year/month/mday/hour/min/sec denote a real moment between years 1400 and 9999 and whose wday is the true weekday, isPossibleDate() is true; for all other components it is false and it does not throw.", "quantifier": "all component values", "why_tests_cant": "the domain is the whole calendar", "anchors": ["src/result.cpp:291-324 isPossibleDate"]}
{"id": "C09", "title": "toDate renders exactly the stored moment", "statement": "If the start components denote a real date (1400..9999) with hour<24, minute<60, second<60 and no time zone was extracted, toDate() returns exactly 'YYYY-Mon-DD HH:MM:SS' for it (followed by ' - ' and the end rendered the same way if the result has an end), and two results with different moments render differently.", "quantifier": "all component values denoting real moments", "why_tests_cant": "3 million days times 86400 seconds; injectivity is a relational property", "anchors": ["src/result.cpp:402-441 toDate"]}
{"id": "C10", "title": "toDate never throws on a parser result", "statement": "For every result returned by a parser's execute(), toDate() returns normally.", "quantifier": "all texts, references, parsers", "why_tests_cant": "universal over texts; failure only for impossible calendar dates such as Feb 30", "anchors": ["src/result.cpp:402-441", "src/parsers/en/ENISOFormatParser.hpp:38-46", "src/parsers/en/ENMonthNameMiddleEndianParser.hpp:72-75"]}
{"id": "C11", "title": "A time-zone shift applies to both ends of a range", "statement": "When the time-zone refiner has tagged a result with offset k minutes, toDate() shows the start shifted by k minutes and, for a range, the end shifted by k minutes too.", "quantifier": "all tagged results", "why_tests_cant": "all moments and offsets, carries across days, months and years", "anchors": ["src/result.cpp:420-438"]}
{"id": "C12", "title": "Parsing terminates on every text", "statement": "Parser::execute returns after finitely many searches for every text and every parser (the pattern never matches the empty string and each round consumes at least one character).", "quantifier": "all texts of any length, all thirteen parsers", "why_tests_cant": "termination cannot be tested", "anchors": ["src/parsers/parsers.cpp:40-63", "src/parsers/en/*: getPattern"]}
{"id": "C13", "title": "Results come out in text order without overlapping", "statement": "The results of one execute() call have strictly increasing indices, lie inside the text (index + text length <= text size), and consecutive results do not overlap.", "quantifier": "all texts, references and parsers", "why_tests_cant": "universal over texts", "anchors": ["src/parsers/parsers.cpp:40-63"]}
{"id": "C14", "title": "A result's index and text locate the match", "statement": "For every result of execute(), the substring of the (lower-cased) input starting at getIndex() with length textLength() is exactly the matched text of that result.", "quantifier": "all texts, references and parsers", "why_tests_cant": "universal over texts; off-by-prefix errors show up only for matches not at the beginning of the text", "anchors": ["src/parsers/parsers.cpp:42-45", "src/parsers/en/ENTimeExpressionParser.hpp:37-38", "src/parsers/en/ENMonthNameParser.hpp:34-35", "src/parsers/en/ENTimeLaterParser.hpp:29-30"]}
{"id": "C15", "title": "Parsing ignores letter case", "statement": "execute() leaves the caller's string lower-cased, and two texts that differ only in letter case give identical results.", "quantifier": "all pairs of texts equal up to ASCII case", "why_tests_cant": "relational, over all texts", "anchors": ["src/parsers/parsers.cpp:30-31", "src/utils/utils.cpp:4-7"]}
{"id": "C16", "title": "execute visits every successive match", "statement": "The list of results equals: take the leftmost match in the text, extract it, keep it if it has a possible date, and continue with the text after the match; nothing else is skipped or repeated.", "quantifier": "all texts, references and parsers", "why_tests_cant": "universal over texts", "anchors": ["src/parsers/parsers.cpp:25-66"]}
{"id": "C17", "title": "The answer does not depend on earlier calls", "statement": "Calling any parser on a text and reference gives the same results whatever texts were parsed before in the same process.", "quantifier": "all histories of earlier execute() calls", "why_tests_cant": "quantifies over histories; hidden global state is only observable after a specific earlier input", "anchors": ["src/parsers/en/ENWeekExperessionParser.hpp:33", "src/parsers/en/ENDeadlineFormatParser.hpp:38-49", "src/parsers/en/ENRelativeDateFormatParser.hpp:38-49", "src/utils/utils.hpp:53-66"]}
{"id": "C18", "title": "Casual dates mean what they say", "statement": "For every text, ENCasualDateParser returns one result per successive occurrence of now/today/tonight/last night/tomorrow/tmr/yesterday, with year/month/day certain: today, tonight and now give the reference date, yesterday the previous calendar day (with the reference hour implied), last night implies hour 0 and gives the previous day iff the reference hour is after 6, tonight implies hour 22, now sets the reference hour, minute and second.", "quantifier": "all texts and all reference times in Boost's range (results inside the range)", "why_tests_cant": "all calendar days including month/year/leap boundaries", "anchors": ["src/parsers/en/ENCasualDateParser.hpp:13-63"]}
{"id": "C19", "title": "\"tomorrow\" is the next calendar day", "statement": "\"tomorrow\" (and \"tmr\") always denotes the calendar day following the reference date.", "quantifier": "all reference date-times", "why_tests_cant": "fails only for references between 00:00 and 00:59", "anchors": ["src/parsers/en/ENCasualDateParser.hpp:32-37"]}
{"id": "C20", "title": "Casual times of day keep the reference date", "statement": "\"(this) morning/afternoon/evening/noon/night\" implies hour 6/15/20/12/20 on the reference date and keeps the reference minute; nothing is marked certain.", "quantifier": "all texts and references", "why_tests_cant": "universal over texts and references", "anchors": ["src/parsers/en/ENCasualTimeParser.hpp:15-58"]}
{"id": "C21", "title": "Weekday names are recognised", "statement": "A text containing a weekday name such as \"monday\" or \"last friday\" yields at least one result from the day-of-week parser.", "quantifier": "all texts containing a weekday name", "why_tests_cant": "the pattern is assembled from string pieces; whether it is a legal regular expression at all is decided only when it is built, and the failure is swallowed for every input", "anchors": ["src/parsers/en/ENDayOfTheWeekParser.hpp:22-33", "src/parsers/parsers.cpp:33-38"]}
{"id": "C22", "title": "Weekday resolution picks the right day", "statement": "Given a weekday and a modifier, the resolved date has that weekday and lies in the Sunday-to-Saturday week of the reference (this/none), the week before (last/past) or the week after (next); last/next set the date, this/none only imply it; early/late imply 06:01/20:01.", "quantifier": "all reference dates, weekdays and modifiers", "why_tests_cant": "7 x 7 weekday pairs over three million dates", "anchors": ["src/parsers/en/ENDayOfTheWeekParser.hpp:35-125 updateParsedComponent"]}
{"id": "C23", "title": "\"in N days/weeks/months/years\" adds exactly N", "statement": "\"in/within N unit\" for day, week, month or year units gives the date exactly N days, 7N days, N months or N years after the reference date (same day of the month, clamped to the month's length, the last day of a month staying the last day); half a day is 12 hours, half a week 3 days, half a month 15 days, half a year 6 months; all implied.", "quantifier": "all N accepted by the code, all references with an in-range answer", "why_tests_cant": "unbounded N and all dates", "anchors": ["src/parsers/en/ENDeadlineFormatParser.hpp:27-113"]}
{"id": "C24", "title": "\"in N hours/minutes/seconds\" gives the moment N units later", "statement": "\"in N hours\", \"in N minutes\", \"in N seconds\" denote the moment exactly that long after the reference, including the date when midnight is crossed.", "quantifier": "all N and references", "why_tests_cant": "fails only when the addition crosses midnight", "anchors": ["src/parsers/en/ENDeadlineFormatParser.hpp:115-140"]}
{"id": "C25", "title": "Unit abbreviations mean the same as full units", "statement": "Every unit spelling the deadline pattern accepts (sec, secs, min, mins, hr, hrs, wk, wks, yr, yrs, ...) has the same effect as the full unit name.", "quantifier": "all accepted unit spellings, N and references", "why_tests_cant": "two dozen spellings times all N and references", "anchors": ["src/parsers/en/ENDeadlineFormatParser.hpp:22", "src/parsers/en/ENDeadlineFormatParser.hpp:64-130"]}
{"id": "C26", "title": "The deadline parser never throws", "statement": "ENDeadlineFormatParser::execute returns normally on every text and reference.", "quantifier": "all texts and references", "why_tests_cant": "overflow needs huge numbers", "anchors": ["src/parsers/en/ENDeadlineFormatParser.hpp:50-110"]}
{"id": "C27", "title": "ISO dates round-trip", "statement": "For every valid date from year 0001 to 9999, the text YYYY-MM-DD (one- or two-digit month and day) parsed by ENISOFormatParser yields exactly that year, month and day, all certain, with nothing else set.", "quantifier": "all year/month/day triples", "why_tests_cant": "3.6 million dates, each in several spellings", "anchors": ["src/parsers/en/ENISOFormatParser.hpp:24-79"]}
{"id": "C28", "title": "ISO date-times and offsets round-trip", "statement": "For every YYYY-MM-DDTHH:MM[:SS[.fff]][Z|+HH[:MM]|-HH[:MM]] text, the parser yields exactly those hour, minute and second values and a time-zone offset equal to the signed number of minutes written.", "quantifier": "all field values", "why_tests_cant": "billions of combinations; the sign rule fails only for negative offsets of less than an hour", "anchors": ["src/parsers/en/ENISOFormatParser.hpp:48-75"]}
{"id": "C29", "title": "ISO parser rejects impossible dates", "statement": "ENISOFormatParser returns a result only if year-month-day is a real calendar date and the time fields are in range.", "quantifier": "all texts", "why_tests_cant": "needs every invalid combination", "anchors": ["src/parsers/en/ENISOFormatParser.hpp:38-42"]}
{"id": "C30", "title": "US holidays fall on the right date every year", "statement": "Independence Day Jul 4, New Year's Day Jan 1, Veterans Day Nov 11, MLK the third Monday of January, Presidents' the third Monday of February, Memorial the last Monday of May, Labor the first Monday of September, Columbus the second Monday of October, Thanksgiving the fourth Thursday of November: the parser returns that date of the reference year with the true weekday where it sets one.", "quantifier": "every reference year 1400..9999", "why_tests_cant": "8600 years times nine holidays", "anchors": ["src/parsers/en/ENUSHolidaysParser.hpp:24-141"]}
{"id": "C31", "title": "Black Friday is the day after Thanksgiving", "statement": "\"black friday\" denotes the day after the fourth Thursday of November, with weekday Friday.", "quantifier": "every reference year", "why_tests_cant": "all years", "anchors": ["src/parsers/en/ENUSHolidaysParser.hpp:103-114"]}
{"id": "C32", "title": "Christmas, New Year's Eve and Thanksgiving are recognised", "statement": "The texts \"christmas\", \"christmas eve\", \"new year's eve\" and \"thanksgiving\" (at the end of the text too) are recognised and denote Dec 25, Dec 24, Dec 31 and the fourth Thursday of November.", "quantifier": "all texts containing the phrase, all references", "why_tests_cant": "depends on what follows the phrase", "anchors": ["src/parsers/en/ENUSHolidaysParser.hpp:11-22"]}
{"id": "C33", "title": "A bare month name means the nearest such month", "statement": "A month name without a year denotes the first day of that month in whichever of the previous, reference or next year is nearest to the reference date, with the month certain and year and day implied; with a four-digit year that year is certain (BE years minus 543).", "quantifier": "all month names, references, years", "why_tests_cant": "nearest-date selection over all dates", "anchors": ["src/parsers/en/ENMonthNameParser.hpp:32-88"]}
{"id": "C34", "title": "The month-name parser never throws", "statement": "ENMonthNameParser::execute returns normally on every text and reference.", "quantifier": "all texts and references", "why_tests_cant": "one spelling out of forty crashes", "anchors": ["src/parsers/en/ENMonthNameParser.hpp:24", "src/utils/utils.hpp:103-116", "src/parsers/en/ENMonthNameParser.hpp:70"]}
{"id": "C35", "title": "\"Month day\" results have a valid month and day number", "statement": "Every result of the middle-endian parser has month 1..12 and day 1..31 certain, and a year that is either the one written or the one nearest the reference.", "quantifier": "all texts and references", "why_tests_cant": "universal over texts", "anchors": ["src/parsers/en/ENMonthNameMiddleEndianParser.hpp:62-160"]}
{"id": "C36", "title": "\"Month day year\" uses the written year", "statement": "A text consisting of a month name, a day number and a four-digit year yields that very date.", "quantifier": "all months, days, years", "why_tests_cant": "depends on whether white space follows the year", "anchors": ["src/parsers/en/ENMonthNameMiddleEndianParser.hpp:55-58"]}
{"id": "C37", "title": "The month-day parser never throws", "statement": "ENMonthNameMiddleEndianParser::execute returns normally on every text and reference.", "quantifier": "all texts and references", "why_tests_cant": "fails only for Feb 29/30/31-like dates in some reference years", "anchors": ["src/parsers/en/ENMonthNameMiddleEndianParser.hpp:120-122"]}
{"id": "C38", "title": "\"last/next N weeks\" moves by 7N days", "statement": "\"last N weeks\" / \"next N weeks\" (N digits or a number word one..twelve, default 1) denote the date 7N days before/after the reference date and \"this week\" the reference date itself; all implied.", "quantifier": "all N and references with an in-range answer", "why_tests_cant": "unbounded N, all dates", "anchors": ["src/parsers/en/ENWeekExperessionParser.hpp:11-50"]}
{"id": "C39", "title": "\"N units ago\" is recognised", "statement": "Texts such as \"5 minutes ago\" or \"2 weeks ago\" are recognised and denote the moment that long before the reference.", "quantifier": "all N, units, references", "why_tests_cant": "the pattern is never exercised by an empty-result test", "anchors": ["src/parsers/en/ENTimeAgoFormatParser.hpp:12-83"]}
{"id": "C40", "title": "\"N units later / from now\" is recognised", "statement": "Texts such as \"4 days from now\" or \"3 hours later\" are recognised and denote the moment that long after the reference.", "quantifier": "all N, units, references", "why_tests_cant": "as above", "anchors": ["src/parsers/en/ENTimeLaterParser.hpp:13-88"]}
{"id": "C41", "title": "\"this week/month/year\" is the enclosing calendar range", "statement": "ENRelativeDateFormatParser maps \"this week\" to the Sunday..Saturday range containing the reference date, \"this month\" to first..last day of its month and \"this year\" to Jan 1..Dec 31, and the range contains the reference date.", "quantifier": "all references (for \"this week\": those whose Sunday and Saturday lie in the years 1400..9999 that Boost supports; at the very ends of that range the call throws)", "why_tests_cant": "all dates incl. leap Februaries and year ends", "anchors": ["src/parsers/en/ENRelativeDateFormatParser.hpp:61-114"]}
{"id": "C42", "title": "\"next/last N units\" moves by N units", "statement": "ENRelativeDateFormatParser maps \"next N days/weeks/months/years/hours/minutes/seconds\" (and \"last\"/\"past\") to the reference moved by exactly that amount, for N in digits or number words.", "quantifier": "all N, units, references", "why_tests_cant": "unbounded N, all dates; number words fail only because of one blank in the pattern", "anchors": ["src/parsers/en/ENRelativeDateFormatParser.hpp:17-58", "src/parsers/en/ENRelativeDateFormatParser.hpp:116-270"]}
{"id": "C43", "title": "Clock times stay on the clock", "statement": "Every result of ENTimeExpressionParser has a certain start hour 0..24 and minute 0..59, second (if given) 0..59, on the reference date; am/pm is honoured: 12am is 0, 12pm is 12, N pm is N+12.", "quantifier": "all texts and references", "why_tests_cant": "universal over texts", "anchors": ["src/parsers/en/ENTimeExpressionParser.hpp:35-122"]}
{"id": "C44", "title": "Clock ranges never read uninitialised or dangling memory", "statement": "ENTimeExpressionParser::extract has no undefined behaviour on any text.", "quantifier": "all texts and references", "why_tests_cant": "undefined behaviour may look right in every test run", "anchors": ["src/parsers/en/ENTimeExpressionParser.hpp:45", "src/parsers/en/ENTimeExpressionParser.hpp:163", "src/parsers/en/ENTimeExpressionParser.hpp:181-186"]}
{"id": "C45", "title": "Clock ranges resolve am/pm on both ends", "statement": "For \"A to B\" with am/pm given on either side, start and end hours are those written, the missing marker being taken from the other side.", "quantifier": "all A, B and markers", "why_tests_cant": "24 x 24 x markers, minutes, seconds", "anchors": ["src/parsers/en/ENTimeExpressionParser.hpp:128-204"]}
{"id": "C46", "title": "Overlap removal returns a non-overlapping subset", "statement": "On results sorted by index, the overlap refiner's output is a sub-list of its input in the same order, no two consecutive outputs overlap, it keeps results that overlap nothing, and running it again changes nothing.", "quantifier": "all sorted lists of results", "why_tests_cant": "all lists", "anchors": ["src/refiners/OverlapRemovalRefiner.hpp:14-38"]}
{"id": "C47", "title": "Overlap removal only drops what is covered", "statement": "Every result dropped by the overlap refiner overlaps a kept result that is at least as long.", "quantifier": "all sorted lists of results", "why_tests_cant": "fails only for chains of three or more", "anchors": ["src/refiners/OverlapRemovalRefiner.hpp:23-33"]}
{"id": "C48", "title": "Time-zone extraction changes only time-zone data", "statement": "The time-zone refiner keeps the number and order of results; it changes only results tagged as clock times that are followed by a known abbreviation, for which it sets the start offset to the table value if none was certain, the text to the abbreviation and the tag; every other field of every result is untouched.", "quantifier": "all result lists and texts", "why_tests_cant": "all texts", "anchors": ["src/refiners/ExtractTimeZoneAbbreviation.hpp:13-51", "src/utils/utils.hpp:128-168"]}
{"id": "C49", "title": "A zone abbreviation after a clock time is honoured", "statement": "A clock time followed by a known zone abbreviation gets that zone's offset wherever it stands in the text.", "quantifier": "all texts", "why_tests_cant": "depends on what precedes and follows", "anchors": ["src/refiners/ExtractTimeZoneAbbreviation.hpp:20-27"]}
{"id": "C50", "title": "Merging a date and a time keeps date fields and takes time fields", "statement": "When the date/time refiner merges a date-only and a time-only result, the merged start has the year, month and day of the date and the hour, minute and second of the time (certain iff the time's hour was certain), and an end earlier than the start is moved to the next day.", "quantifier": "all pairs of results", "why_tests_cant": "all component states", "anchors": ["src/refiners/en/ENMergeDateAndTimeRefiner.hpp:26-100"]}
{"id": "C51", "title": "Merging dates and times neither loses nor repeats results", "statement": "The date/time refiner's output contains each input result exactly once, either alone or as part of exactly one merged result.", "quantifier": "all result lists", "why_tests_cant": "depends on which pair is last", "anchors": ["src/refiners/en/ENMergeDateAndTimeRefiner.hpp:102-146"]}
{"id": "C52", "title": "Merged ranges run from the earlier to the later date", "statement": "When the range refiner merges two results the merged result's start is the earlier and its end the later of the two dates.", "quantifier": "all pairs of results", "why_tests_cant": "order of operands matters", "anchors": ["src/refiners/en/ENMergeDateRangeRefiner.hpp:45-76"]}
{"id": "C53", "title": "The range refiner neither loses nor repeats results", "statement": "The range refiner's output contains each input result exactly once, alone or as part of exactly one merged range.", "quantifier": "all result lists", "why_tests_cant": "all lists", "anchors": ["src/refiners/en/ENMergeDateRangeRefiner.hpp:18-42"]}
{"id": "C54", "title": "The program prints the date of the first result", "statement": "For every text and reference date-time the program prints either 'Date:\\t' followed by the rendering of the first refined result or, exactly when no parser recognises anything, '[???] -- Invalid date'; \"today\", \"tomorrow\" and \"yesterday\" print the right calendar date for every reference.", "quantifier": "all texts and references", "why_tests_cant": "universal over texts and references", "anchors": ["time.cpp:33-96"]}
{"id": "C55", "title": "The printed answer is determined by the input", "statement": "The printed date is a function of the text and reference alone: it does not depend on how std::sort orders results with equal index.", "quantifier": "all texts, references and all sort orders permitted by the standard", "why_tests_cant": "quantifies over the unspecified behaviours of std::sort", "anchors": ["time.cpp:81-84"]}
{"id": "C56", "title": "Ordinal words convert to their numbers", "statement": "argToOrdinalValue maps every ordinal word first..thirty-first, in any letter case and with hyphen or any amount of blanks between and around the words, to its number 1..31, and any other string to 0.", "quantifier": "all strings", "why_tests_cant": "infinitely many spellings", "anchors": ["src/utils/utils.cpp:14-19", "src/utils/utils.hpp:68-100"]}
{"id": "C57", "title": "Unit fragments are collected from every text", "statement": "extractDateTimeUnitFragments terminates on every string and maps a unit phrase such as '2 weeks', 'an hour', 'half a day', 'a few minutes' to exactly that unit and amount.", "quantifier": "all strings", "why_tests_cant": "termination and all amounts", "anchors": ["src/utils/utils.cpp:34-82"]}
{"id": "C58", "title": "Casual-date text is recognised wherever it stands", "statement": "Any text in which now/today/tonight/yesterday/tomorrow/tmr occurs as a separate word (delimited by non-word characters or the ends of the text) yields at least one casual-date result.", "quantifier": "all texts", "why_tests_cant": "all surrounding contexts", "anchors": ["src/parsers/en/ENCasualDateParser.hpp:13-20"]}
{"id": "C59", "title": "Only results joined by a connective are merged", "statement": "The merging refiners merge two neighbouring results only if the text between them is a connective (at/on/of/comma/dash for a date and a time; and/to/through/dash for a range); results separated by other text stay separate.", "quantifier": "all texts and pairs of results", "why_tests_cant": "all texts between two results", "anchors": ["src/refiners/en/ENMergeDateAndTimeRefiner.hpp:7-24", "src/refiners/en/ENMergeDateRangeRefiner.hpp:7-92"]}
{"id": "C60", "title": "Merging a date with a zoned time keeps the zone", "statement": "When a clock time with an extracted time zone is merged with a date, the merged result keeps the zone's offset, so that printing it shows the shifted moment.", "quantifier": "all texts and results", "why_tests_cant": "all combinations of dates, times and zones", "anchors": ["src/refiners/en/ENMergeDateAndTimeRefiner.hpp:55-100"]}
{"id": "C61", "title": "The ISO parser never throws", "statement": "ENISOFormatParser::execute returns normally on every text and every reference: no conversion of a matched field fails.", "quantifier": "all texts and references", "why_tests_cant": "the texts are unbounded; a missing or over-long field in any match would throw std::invalid_argument or std::out_of_range", "anchors": ["src/parsers/en/ENISOFormatParser.hpp: ENISOFormatParser::extract", "src/parsers/parsers.cpp: Parser::execute"]}
{"id": "C62", "title": "The holiday parser never throws", "statement": "ENHolidayParser::execute returns normally on every text and every reference date.", "quantifier": "all texts and references", "why_tests_cant": "the texts are unbounded and the weekday arithmetic may fail only for some years", "anchors": ["src/parsers/en/ENUSHolidaysParser.hpp: extract", "src/parsers/parsers.cpp: Parser::execute"]}
{"id": "C63", "title": "A unit phrase is read the same wherever it stands", "statement": "extractDateTimeUnitFragments gives the same amount for a unit phrase such as '12 days' whether or not other words precede it in the text.", "quantifier": "all texts containing a unit phrase", "why_tests_cant": "the outcome depends on the lengths of the preceding text and of the phrase; a test sees one pair of lengths", "anchors": ["src/utils/utils.cpp:extractDateTimeUnitFragments"]}
{"id": "C64", "title": "The clock parser always returns", "statement": "ENTimeExpressionParser::execute returns normally on every text and every reference (in a build in which reading the uninitialised marker and the destroyed string yields some value): it never throws.", "quantifier": "all texts, references and values of the undefined reads", "why_tests_cant": "universal over texts; many integer conversions and date constructions on the way", "anchors": ["src/parsers/en/ENTimeExpressionParser.hpp:35-205", "src/parsers/parsers.cpp:25-66"]}
{"id": "C65", "title": "A text that is a clock time is read as that time", "statement": "A text consisting of an optional \"at\"/\"from\", an hour (1-4 digits, noon or midnight), optional minutes, seconds and fraction, and an optional am/pm/o'clock marker yields exactly one result, covering the text, with hour, minute and second certain and am/pm applied, on the reference date; if no such time exists (25:30, 13 pm, 5:60) and no seconds are written there is no result.", "quantifier": "all such texts (any digits, separators, markers, letter case and amount of space) and references", "why_tests_cant": "thousands of combinations of parts and unboundedly many spacings", "anchors": ["src/parsers/en/ENTimeExpressionParser.hpp:23-126"]}
{"id": "C66", "title": "Clock results record only what is written", "statement": "The text of every result of ENTimeExpressionParser is a written time, optionally followed by a separator and a second time; start and end carry exactly the hours, minutes and seconds written (am/pm applied; a missing end marker taken from the start, a final pm carried back to an unmarked start), the date is the implied reference date, and an end is present exactly if the second part is an existing time and does not look like a numeric zone.", "quantifier": "all texts, references and results", "why_tests_cant": "universal over texts and over every match the pattern can find inside them", "anchors": ["src/parsers/en/ENTimeExpressionParser.hpp:23-205"]}
{"id": "C67", "title": "Inside the program the parsers do not influence one another", "statement": "For every text, reference and letter case the list of results collected by the program before sorting is exactly the concatenation, in registration order, of what each of the twelve parsers returns when it is the only one to run in a fresh process; and every result has a non-empty text, so no refiner mistakes it for the empty placeholder result.", "quantifier": "all texts and references, all twelve parsers", "why_tests_cant": "the parsers share a process-wide word table and a string that each of them rewrites; independence is over all texts", "anchors": ["time.cpp:62-84", "src/parsers/parsers.cpp:25-66", "src/utils/utils.hpp: INTEGER_WORDS"]}
{"id": "C68", "title": "Month-day results record only what is written", "statement": "The text of every result of ENMonthNameMiddleEndianParser is a date written with an optional weekday, a month name, a day, an optional range end and an optional year; the result's month, day, weekday and year are certain and are those written (without a year, a year next to or equal to the reference year), the clock is left alone, and an end is present exactly if a range end is written; it then carries the same month, year and weekday, the last day, and 23:59.", "quantifier": "all texts, references and results", "why_tests_cant": "universal over texts and over every match the pattern can find inside them", "anchors": ["src/parsers/en/ENMonthNameMiddleEndianParser.hpp:23-160"]}
{"id": "C69", "title": "A plainly written month-day date followed by a word is found", "statement": "If a text begins with a plainly written month-day date (optional weekday, month, day as number or ordinal word, optional range end, optional year with or without era) and a word follows, ENMonthNameMiddleEndianParser returns it as its first result, at index 0, with exactly the written text and meaning; it is the only result if no other month is named.", "quantifier": "all such dates, all continuations of the text, all references in the years 1401-9998", "why_tests_cant": "about 10^6 phrase shapes with unbounded spaces, and arbitrary text behind them", "anchors": ["src/parsers/en/ENMonthNameMiddleEndianParser.hpp:23-160", "src/parsers/parsers.cpp:25-66"]}
{"id": "C70", "title": "The reference date on the command line is read exactly", "statement": "A reference date written YYYY-MM-DD HH:MM:SS is read as exactly that moment; a date that does not exist in the calendar is refused; times beyond 23:59:59 run over into the following days; a date without a time of day is refused.", "quantifier": "all digit strings for the six fields, all moments of the years 1400 to 9999", "why_tests_cant": "there are about 2.7e11 moments and unboundedly many spellings", "anchors": ["time.cpp: main", "boost posix_time::time_from_string"]}
{"id": "C71", "title": "Printed dates can be given back as reference dates", "statement": "The text printed after 'Date:' for a single moment is itself accepted as a reference date and denotes the same moment.", "quantifier": "all moments of the years 1400 to 9999", "why_tests_cant": "round trip over every moment", "anchors": ["time.cpp: main", "src/result.cpp: ParsedResult::toDate"]}
{"id": "C72", "title": "The command line selects the reference", "statement": "With fewer than one or more than two user arguments only the usage is printed; with one the machine's clock is the reference; with two the written moment is, independently of the clock, and 'now' then prints the written moment back; an unreadable reference date ends the program without output.", "quantifier": "all argument vectors, texts, clocks and sorts", "why_tests_cant": "all argument vectors and all moments", "anchors": ["time.cpp: main, printUsage"]}
{"id": "C73", "title": "A result's tag names the parser that made it", "statement": "A result returned by a parser carries no tag of another parser and no tag of a refiner; it does carry its own parser's tag, except for weeks (which have none), deadlines (only hours, minutes and seconds are tagged) and clock results without an accepted hour.", "quantifier": "all parsers, texts, references, environments and call histories", "why_tests_cant": "all texts", "anchors": ["src/utils/utils.hpp: Modifiers", "src/result.cpp: setTag, getTag", "src/parsers/en/*"]}
{"id": "C74", "title": "The program answers deadlines correctly", "statement": "For a text that is 'in' or 'within' followed by an amount (digits, number word, a/an, few, half) and a full unit word, time.cpp prints: for days, weeks, months, years the date that much later, at midnight; for hours, minutes, seconds that moment, if it lies on the same day; for half a day the moment twelve hours later without its seconds.", "quantifier": "all amounts, units, spacings, letter cases, reference moments and sorts", "why_tests_cant": "infinitely many amounts and reference moments; twelve parsers and four refiners interact", "anchors": ["time.cpp: main", "src/parsers/en/ENDeadlineFormatParser.hpp", "src/refiners/*"]}
{"id": "C75", "title": "The program answers ISO dates correctly", "statement": "For a text that is an ISO date, optionally with a time of day, naming a real moment, time.cpp prints that date and time, whatever the reference is.", "quantifier": "all ISO texts naming real moments, all references and sorts", "why_tests_cant": "all dates and times; other parsers also look at the digits", "anchors": ["time.cpp: main", "src/parsers/en/ENISOFormatParser.hpp", "src/refiners/*"]}
{"id": "C76", "title": "The program answers weeks correctly", "statement": "For a text that is 'last' or 'next', an optional amount (digits or a number word) and 'week(s)', time.cpp prints the date 7N days before or after the reference date, at midnight; for 'this week' the reference date at midnight.", "quantifier": "all amounts, spacings, letter cases, reference moments and sorts", "why_tests_cant": "infinitely many amounts and references", "anchors": ["time.cpp: main", "src/parsers/en/ENWeekExperessionParser.hpp", "src/refiners/*"]}
{"id": "C77", "title": "The program answers clock times correctly", "statement": "For a text that is a clock time (optionally after 'at' or 'from'; digits for the hour, optional minutes, seconds, am/pm/o'clock) naming an hour below 24, time.cpp prints the reference date at that time.", "quantifier": "all clock texts with a numeric hour, all references, environments and sorts", "why_tests_cant": "unbounded family of spellings and references", "anchors": ["time.cpp: main", "src/parsers/en/ENTimeExpressionParser.hpp", "src/refiners/*"]}
{"id": "C78", "title": "The program answers months correctly", "statement": "For a text that is a month name (full, or short with or without a dot, except jun) time.cpp prints the first of the nearest such month at midnight; followed by a four-digit year from 1400 on, the first of that month of that year.", "quantifier": "all month names, separators, years, references and sorts", "why_tests_cant": "all years and references", "anchors": ["time.cpp: main", "src/parsers/en/ENMonthNameParser.hpp", "src/refiners/*"]}
{"id": "C79", "title": "The program answers clock ranges correctly", "statement": "For a text that is a range of two clock times with am or pm on at least one of them, time.cpp prints both moments on the reference date (pm on the end only is carried to the start; am/pm on the start only is carried to the end), provided both are below 24:00.", "quantifier": "all such ranges with numeric hours, all references and sorts; environments in which a dangling reference still shows the old value", "why_tests_cant": "unbounded family of spellings and references", "anchors": ["time.cpp: main", "src/parsers/en/ENTimeExpressionParser.hpp", "src/result.cpp: toDate"]}
{"id": "C80", "title": "The program answers holiday names correctly", "statement": "For a text that is the name of one of the recognised holidays followed by a blank and 'day' (in any letter case) time.cpp prints that holiday of the reference year, at midnight.", "quantifier": "all holidays of the table, blanks, letter cases, reference moments, environments and sorts", "why_tests_cant": "all reference years; the movable holidays differ from year to year", "anchors": ["time.cpp: main", "src/parsers/en/ENUSHolidaysParser.hpp", "src/refiners/*"]}
{"id": "C81", "title": "The refiners always return", "statement": "For every list of results that lie inside the text and whose start is an existing calendar date, running all refiners returns a list: nothing is thrown, no substring is taken out of range.", "quantifier": "all lists of results (any length, order, overlap, tags, ends) and all texts shorter than 2^32", "why_tests_cant": "unbounded lists of results in arbitrary order", "anchors": ["src/refiners/*", "time.cpp: main"]}
{"id": "C82", "title": "The program always answers", "statement": "time.cpp prints one line for every text: a date or the invalid-date message; it never ends with an exception.", "quantifier": "all texts, reference moments, sorts of equal indices", "why_tests_cant": "all texts", "anchors": ["time.cpp: main", "src/parsers/*", "src/refiners/*", "src/result.cpp: toDate"]}
{"id": "C83", "title": "What every ISO result says", "statement": "Every result of the ISO parser, on every text, has as its text yyyy-m-d with an optional T clock and zone, and carries exactly the written year, month and day (month 1..12, day 1..31), the written clock if there is one and the written zone offset in minutes (with the sign handled as in C28), no end and no weekday.", "quantifier": "all texts and all results", "why_tests_cant": "all texts; soundness of the recogniser, not only of chosen inputs", "anchors": ["src/parsers/en/ENISOFormatParser.hpp"]}
{"id": "C84", "title": "The week parser always returns", "statement": "The week parser returns a list of results on every text and after every history of calls.", "quantifier": "all texts, histories of calls, references", "why_tests_cant": "all texts, amounts and histories", "anchors": ["src/parsers/en/ENWeekExperessionParser.hpp", "src/utils/utils.hpp"]}
{"id": "C85", "title": "Casual dates are found wherever they stand", "statement": "If a text contains now, today, tonight, yesterday, tomorrow, tmr or last night as separate words, the casual-date parser returns a list, and one of its results has the index of the phrase and the phrase (with the blanks that follow it, if any) as its text, whatever is written before and after.", "quantifier": "all texts before and after the phrase, letter cases, reference moments, environments; no bound on the length but 2^32", "why_tests_cant": "all contexts of the phrase: an earlier partial match or an overlap must never hide it", "anchors": ["src/parsers/en/ENCasualDateParser.hpp", "src/parsers/parsers.cpp: Parser::execute"]}
{"id": "C86", "title": "Deadlines are found wherever they stand", "statement": "If a text contains 'in' or 'within', an amount and a unit as separate words, and the deadline parser returns, one of its results has the index of the phrase and the phrase as its text, and says the moment that amount after the reference as in C23/C24.", "quantifier": "all texts before and after the phrase, letter cases, reference moments, environments; no bound on the length but 2^32, all amounts up to INT_MAX", "why_tests_cant": "all contexts and amounts", "anchors": ["src/parsers/en/ENDeadlineFormatParser.hpp", "src/parsers/parsers.cpp: Parser::execute"]}
{"id": "C87", "title": "ISO dates are found wherever they stand", "statement": "If a text contains a possible date yyyy-m-d, with or without a clock and zone, that no word, digit, colon, dot or sign touches, and the ISO parser returns, one of its results has the index of the date and the date as its text, and carries exactly the written fields.", "quantifier": "all texts before and after the phrase, letter cases, reference moments, environments; no bound on the length but 2^32, all dates, clocks and zones", "why_tests_cant": "all contexts and dates", "anchors": ["src/parsers/en/ENISOFormatParser.hpp", "src/parsers/parsers.cpp: Parser::execute"]}
{"id": "C88", "title": "Holidays are found wherever they stand", "statement": "If a text contains the name of a recognised holiday, blanks and 'day' as separate words and the holiday parser returns, one of its results has the index of the phrase and the phrase as its text, and its date is that holiday of the reference year.", "quantifier": "all texts before and after the phrase, letter cases, reference moments, environments; no bound on the length but 2^32, all holidays", "why_tests_cant": "all contexts and reference years", "anchors": ["src/parsers/en/ENUSHolidaysParser.hpp", "src/parsers/parsers.cpp: Parser::execute"]}
{"id": "C89", "title": "Weeks are found wherever they stand", "statement": "If a text contains 'this week', or 'last' or 'next', an optional amount and 'week(s)', as separate words, not directly after another 'last' or 'next' (and without an amount not directly before another 'week'), and the week parser returns, one of its results has the index of the phrase and the phrase as its text, and its date is the reference date moved by that many weeks, whatever was parsed before.", "quantifier": "all texts before and after the phrase, letter cases, reference moments, environments; no bound on the length but 2^32, all amounts, all histories of calls", "why_tests_cant": "all contexts, amounts and histories", "anchors": ["src/parsers/en/ENWeekExperessionParser.hpp", "src/parsers/parsers.cpp: Parser::execute"]}
{"id": "C90", "title": "The program finds every such phrase", "statement": "If a text contains a phrase of C85-C89 as separate words, and time.cpp prints a line, that line is not the invalid-date message; the result that stands at the phrase is among those the refiners are given, and the line shows the first result they return.", "quantifier": "all texts before and after the phrase, letter cases, reference moments, environments; no bound on the length but 2^32, all sorts of equal indices", "why_tests_cant": "all contexts; all combinations of results of the other parsers", "anchors": ["time.cpp: main", "src/parsers/parsers.cpp: Parser::execute", "src/refiners/*"]}
{"id": "C91", "title": "Times of day are found wherever they stand", "statement": "If a text contains morning, afternoon, evening, noon or night as a separate word, the casual-time parser returns a list, and one of its results has a text that ends with that word and begins with nothing but 'this' and blanks, stands where that text stands, and says the reference date at the hour of the word; with 'this' written before the word the result begins exactly there.", "quantifier": "all texts before and after the phrase, letter cases, reference moments, environments; no bound on the length but 2^32", "why_tests_cant": "all contexts of the word", "anchors": ["src/parsers/en/ENCasualTimeParser.hpp", "src/parsers/parsers.cpp: Parser::execute"]}
{"id": "C92", "title": "A phrase in a sentence is answered like the phrase alone", "statement": "If a text contains a phrase of C85-C89 or C91 that says a real moment, and whatever else the parsers recognise starts within the phrase and is shorter than it, time.cpp prints exactly the moment the phrase says, whatever is written around the phrase.", "quantifier": "all texts before and after the phrase, letter cases, reference moments, environments; no bound on the length but 2^32, all sorts of equal indices, all results of the other parsers inside the phrase", "why_tests_cant": "all contexts, phrases, moments and sets of overlapping results", "anchors": ["time.cpp: main", "src/refiners/*", "src/result.cpp: toDate", "src/parsers/*"]}
{"id": "C93", "title": "Clock times are found wherever they stand", "statement": "If a text contains a clock time (an hour in one to four digits, noon or midnight, possibly minutes and seconds, possibly am, pm, a.m., p.m. or o'clock) after a blank or at the start, not after 'to' or a dash, and ended by a sign that does not continue it, then whatever else the text contains, if the clock-time parser returns, one of its results has exactly that time as its text (with the 'at' or 'from' before it and at most one space after it), stands there (counting the one separator before it) and says the reference date at the hour and minute written, 12 am being 0 and 12 pm 12.", "quantifier": "all texts before and after the time, letter cases, reference moments, environments, states of the parser's word list; no bound on the length but 2^32", "why_tests_cant": "all contexts and all written times", "anchors": ["src/parsers/en/ENTimeExpressionParser.hpp", "src/parsers/parsers.cpp: Parser::execute"]}
{"id": "C94", "title": "A clock time in a sentence is answered", "statement": "If a text contains a clock time as in C93, not followed by a zone abbreviation that ends the text, and nothing else in the text is recognised (but shorter results that begin inside the time), time.cpp prints the reference date at exactly that time.", "quantifier": "all texts around the time, letter cases, reference moments, environments, sorts of equal indices, written times, results of other parsers inside the time; no bound on the length but 2^32", "why_tests_cant": "all contexts, times and moments", "anchors": ["time.cpp: main", "src/parsers/en/ENTimeExpressionParser.hpp", "src/refiners/*", "src/result.cpp: toDate"]}
{"id": "C95", "title": "A clock time with a zone in a sentence is answered in that zone", "statement": "If in C94 a space, a known zone abbreviation (possibly in parentheses) and nothing else follow the time, time.cpp prints the moment moved by the minutes the table gives for that zone, over midnight if need be.", "quantifier": "all texts around the time, letter cases, reference moments, environments, sorts of equal indices, written times, results of other parsers inside the time; no bound on the length but 2^32, zones", "why_tests_cant": "all contexts, times, zones and moments", "anchors": ["time.cpp: main", "src/refiners/ExtractTimeZoneAbbreviation.hpp", "src/result.cpp: toDate"]}
{"id": "C96", "title": "A day and a clock time in one text are answered together", "statement": "If a text names a day (today, yesterday, tomorrow, in N days/weeks/months/years, an ISO date, last/next N weeks, this week) and later a clock time, and nothing else in the text is recognised, time.cpp prints that day at that time.", "quantifier": "all texts before, between and after the two, letter cases, reference moments, environments, sorts of equal indices, written times and day phrases, results of other parsers inside the two; no bound on the length but 2^31", "why_tests_cant": "all contexts, phrases, times and moments", "anchors": ["time.cpp: main", "src/parsers/en/ENTimeExpressionParser.hpp", "src/refiners/en/ENMergeDateAndTimeRefiner.hpp", "src/refiners/en/ENMergeDateRangeRefiner.hpp", "src/refiners/OverlapRemovalRefiner.hpp", "src/result.cpp: toDate"]}
{"id": "C97", "title": "Two dates joined by a connecting word are answered as a range", "statement": "If a text contains two dates written as casual dates, ISO dates or holidays, the first not after the second, with \"and\", \"to\", \"through\" or \"-\" between them, and nothing else in the text is recognised, time.cpp prints the range from the first to the second.", "quantifier": "all texts before, between and after the two, letter cases, reference moments, environments, sorts of equal indices, the phrases, results of other parsers inside the two; no bound on the length but 2^31", "why_tests_cant": "all contexts, pairs of phrases and moments", "anchors": ["time.cpp: main", "src/refiners/en/ENMergeDateRangeRefiner.hpp", "src/refiners/en/ENMergeDateAndTimeRefiner.hpp", "src/refiners/OverlapRemovalRefiner.hpp", "src/result.cpp: toDate"]}
{"id": "C98", "title": "A plainly written month-day date is found anywhere in a text", "statement": "A plainly written month-day date (\"March 5\", \"on Monday, March 5th 2012\", \"March 5 to 7\") anywhere in a text, at its start or after a character that is not part of a word, not right after the name of a weekday the program would join to it, and followed by a word that does not begin with am, pm, ad, bc, be or to, is reported exactly where it stands with the stated meaning, whenever the parser returns.", "quantifier": "all texts before and after the phrase, letter cases, reference moments, environments, month-day phrases; no bound on the length but 2^32", "why_tests_cant": "all contexts, phrases and moments", "anchors": ["src/parsers/en/ENMonthNameMiddleEndianParser.hpp: extract", "src/parsers/parser.cpp: execute"]}
{"id": "C99", "title": "The program answers a text with one month-day date", "statement": "If nothing else in the text is recognised (other parsers' results lie inside the phrase and are shorter), time.cpp prints midnight of the day named by the plainly written month-day date, in the year written or the nearest one, and for a range also 23:59:00 of its last day.", "quantifier": "all texts before and after the phrase, letter cases, reference moments, environments, sorts of equal indices, month-day phrases of existing days", "why_tests_cant": "all contexts, phrases and moments", "anchors": ["time.cpp: main", "src/parsers/en/ENMonthNameMiddleEndianParser.hpp: extract", "src/refiners/OverlapRemovalRefiner.hpp", "src/result.cpp: toDate"]}
{"id": "C100", "title": "A month-day date followed by a clock time is answered with both", "statement": "If a text contains a plainly written month-day date followed by a word, later a clock time standing clear, no connecting word and no zone abbreviation after the time, and nothing else is recognised, time.cpp prints that day (of the year written or the nearest) at that time.", "quantifier": "all texts before, between and after, letter cases, reference moments, environments, sorts of equal indices, month-day phrases, clock times; no bound on the length but 2^31", "why_tests_cant": "all contexts, phrases, times and moments", "anchors": ["time.cpp: main", "src/parsers/en/ENMonthNameMiddleEndianParser.hpp: extract", "src/parsers/en/ENTimeExpressionParser.hpp", "src/refiners/en/ENMergeDateAndTimeRefiner.hpp", "src/refiners/OverlapRemovalRefiner.hpp"]}
{"id": "C101", "title": "Two month-day dates joined by a connecting word are answered as a range", "statement": "If a text contains two plainly written month-day dates with \"and\", \"to\" or \"through\" between them, each followed by a word, and nothing else is recognised, time.cpp prints the range from the first to the second, each in the year written or the nearest one (the first twice if they are in the wrong order).", "quantifier": "all texts before, between and after, letter cases, reference moments, environments, sorts of equal indices, pairs of month-day phrases; no bound on the length but 2^31", "why_tests_cant": "all contexts, pairs of phrases and moments", "anchors": ["time.cpp: main", "src/parsers/en/ENMonthNameMiddleEndianParser.hpp: extract", "src/refiners/en/ENMergeDateRangeRefiner.hpp", "src/refiners/OverlapRemovalRefiner.hpp", "src/result.cpp: toDate"]}
{"id": "C102", "title": "A month name, with or without a year, is found wherever it stands", "statement": "A month name (any spelling the program knows), optionally followed by a four-digit year with or without an era, standing after a sign or after a word and blanks (not after another month or a year with an era), and followed by the end, a sign or another word: whatever else the text contains and whatever was parsed before, if the month-name parser returns, it returns a result with exactly that text, that month, day 1, and the year written (its era applied) or the nearest one; its reported index is that of the character before the blanks.", "quantifier": "all texts before and after, letter cases, spellings, years, eras, reference moments, environments, histories of earlier parses; no bound on the length but 2^32", "why_tests_cant": "all contexts, spellings, years and moments", "anchors": ["src/parsers/en/ENMonthNameParser.hpp: PATTERN, extract", "src/parsers/Parser.cpp: execute"]}
{"id": "C103", "title": "A month name in a sentence is answered with the first of that month", "statement": "If a text contains such a month name and everything else that is recognised lies inside it and is shorter, time.cpp prints midnight of the first day of that month, in the year written (its era applied) or in the year whose first of that month is nearest to the reference date.", "quantifier": "all texts before and after, letter cases, spellings, years, eras, reference moments, environments, sorts of equal indices; no bound on the length but 2^32", "why_tests_cant": "all contexts, spellings, years and moments", "anchors": ["time.cpp: main", "src/parsers/en/ENMonthNameParser.hpp: extract", "src/refiners/OverlapRemovalRefiner.hpp", "src/result.cpp: toDate"]}
{"id": "C104", "title": "A clock time followed by a day is answered with both", "statement": "If a text contains a clock time standing clear, later a phrase naming a day (today, tomorrow, yesterday not followed by a blank; in N days/weeks/months/years; an ISO date; last/next N weeks; this week), no zone abbreviation after the time, no connecting word (and, to, through, -) after the day, and nothing else is recognised, time.cpp prints that day at that time.", "quantifier": "all texts before, between and after, letter cases, reference moments, environments, sorts of equal indices, clock times and day phrases, results of other parsers inside the two; no bound on the length but 2^31", "why_tests_cant": "all contexts, phrases, times and moments", "anchors": ["time.cpp: main", "src/parsers/en/ENTimeExpressionParser.hpp", "src/refiners/en/ENMergeDateAndTimeRefiner.hpp", "src/refiners/en/ENMergeDateRangeRefiner.hpp", "src/refiners/OverlapRemovalRefiner.hpp", "src/result.cpp: toDate"]}
{"id": "C105", "title": "A clock time followed by a month-day date is answered with both", "statement": "If a text contains a clock time standing clear, later a plainly written month-day date followed by a word, no zone abbreviation after the time, no connecting word after the date, and nothing else is recognised, time.cpp prints that day (of the year written or the nearest) at that time.", "quantifier": "all texts before, between and after, letter cases, reference moments, environments, sorts of equal indices, clock times and month-day phrases; no bound on the length but 2^31", "why_tests_cant": "all contexts, phrases, times and moments", "anchors": ["time.cpp: main", "src/parsers/en/ENMonthNameMiddleEndianParser.hpp: extract", "src/parsers/en/ENTimeExpressionParser.hpp", "src/refiners/en/ENMergeDateAndTimeRefiner.hpp", "src/refiners/OverlapRemovalRefiner.hpp"]}
{"id": "C106", "title": "A month name with a clock time is answered with both", "statement": "If a text contains a month name (with or without a year and era), later a clock time standing clear, no zone abbreviation and no connecting word (and, to, through, -) after the time, and nothing else is recognised, time.cpp prints the first day of that month (of the year written, or of the nearest year) at that time.", "quantifier": "all texts before, between and after, letter cases, reference moments, environments, sorts of equal indices, month names, abbreviations, years and eras; no bound on the length but 2^31; all clock times", "why_tests_cant": "unboundedly many texts; the answer depends on every parser and every refiner together", "anchors": ["time.cpp: main", "src/parsers/en/ENMonthNameParser.hpp: extract", "src/refiners/OverlapRemovalRefiner.hpp", "src/result.cpp: toDate", "src/parsers/en/ENTimeExpressionParser.hpp", "src/refiners/en/ENMergeDateAndTimeRefiner.hpp", "src/refiners/en/ENMergeDateRangeRefiner.hpp"]}
{"id": "C107", "title": "A clock time followed by a month name is answered with both", "statement": "If a text contains a clock time standing clear, later a month name (with or without a year and era), no zone abbreviation after the time, no connecting word after the place where the program believes the month to end, and nothing else is recognised, time.cpp prints the first day of that month at that time.", "quantifier": "all texts before, between and after, letter cases, reference moments, environments, sorts of equal indices, month names, abbreviations, years and eras; no bound on the length but 2^31; all clock times", "why_tests_cant": "unboundedly many texts; the answer depends on every parser and every refiner together", "anchors": ["time.cpp: main", "src/parsers/en/ENMonthNameParser.hpp: extract", "src/refiners/OverlapRemovalRefiner.hpp", "src/result.cpp: toDate", "src/parsers/en/ENTimeExpressionParser.hpp", "src/refiners/en/ENMergeDateAndTimeRefiner.hpp", "src/refiners/en/ENMergeDateRangeRefiner.hpp"]}
{"id": "C108", "title": "Two month names are never answered as a range", "statement": "If a text contains two month names (with or without years) joined by ' and ', ' to ' or ' through ', the first after at most two characters of lead (the sign or letter and blank before it), and nothing else is recognised, time.cpp prints only the first day of the first month: the connecting word is not seen, because the reported place of a month name begins at the sign before it.", "quantifier": "all texts before, between and after, letter cases, reference moments, environments, sorts of equal indices, month names, abbreviations, years and eras; no bound on the length but 2^31", "why_tests_cant": "unboundedly many texts; the answer depends on every parser and every refiner together", "anchors": ["time.cpp: main", "src/parsers/en/ENMonthNameParser.hpp: extract", "src/refiners/OverlapRemovalRefiner.hpp", "src/result.cpp: toDate", "src/refiners/en/ENMergeDateRangeRefiner.hpp", "src/refiners/en/ENMergeDateAndTimeRefiner.hpp"]}
{"id": "C109", "title": "Two dates of any kinds joined by a connecting word are answered as a range", "statement": "If a text contains two dates - each a casual date, an ISO date, a holiday or a plainly written month-day date, not necessarily of the same kind -, a connecting word (and, to, through, -) between them, and nothing else is recognised, time.cpp prints the range from the first to the second; if the second is earlier, it prints the first twice.", "quantifier": "all texts before, between and after, letter cases, reference moments, environments, sorts of equal indices, and pairs of dates of any of the four kinds; no bound on the length but 2^31", "why_tests_cant": "unboundedly many texts; the answer depends on every parser and every refiner together", "anchors": ["time.cpp: main", "src/refiners/en/ENMergeDateRangeRefiner.hpp", "src/refiners/en/ENMergeDateAndTimeRefiner.hpp", "src/refiners/OverlapRemovalRefiner.hpp", "src/result.cpp: toDate", "src/parsers/en/ENMonthNameMiddleEndianParser.hpp: extract"]}
{"id": "C110", "title": "Of two dates that are not joined only the first is answered", "statement": "If a text contains two dates - each a casual date, an ISO date, a holiday or a plainly written month-day date -, no connecting word between them, and nothing else is recognised, time.cpp prints the first date only.", "quantifier": "all texts before, between and after, letter cases, reference moments, environments, sorts of equal indices, and pairs of dates of any of the four kinds; no bound on the length but 2^31", "why_tests_cant": "unboundedly many texts; the answer depends on every parser and every refiner together", "anchors": ["time.cpp: main", "src/refiners/en/ENMergeDateRangeRefiner.hpp", "src/refiners/en/ENMergeDateAndTimeRefiner.hpp", "src/refiners/OverlapRemovalRefiner.hpp", "src/result.cpp: toDate", "src/parsers/en/ENMonthNameMiddleEndianParser.hpp: extract"]}
{"id": "C111", "title": "Tomorrow or yesterday, other words and then a clock time give that day at that time", "statement": "If a text contains tomorrow, tmr or yesterday, blanks, at least one word, later a clock time standing clear with no connecting word and no zone abbreviation after it, and nothing else is recognised, time.cpp prints the day named at that clock time. The recognised text of the day includes all the blanks after the word.", "quantifier": "all texts before, between and after, letter cases, numbers and kinds of blanks, clock times, reference moments, environments and sorts of equal indices; no bound on the length but 2^31", "why_tests_cant": "unboundedly many texts; the answer depends on every parser and every refiner together", "anchors": ["time.cpp: main", "src/parsers/en/ENTimeExpressionParser.hpp", "src/refiners/en/ENMergeDateAndTimeRefiner.hpp", "src/refiners/en/ENMergeDateRangeRefiner.hpp", "src/refiners/OverlapRemovalRefiner.hpp", "src/result.cpp: toDate"]}
{"id": "C112", "title": "Tomorrow or yesterday directly before a clock time: the longer of the two is answered alone", "statement": "If tomorrow, tmr or yesterday and blanks are directly followed by a clock time (perhaps introduced by at and the like), so that the two recognised texts overlap, and nothing else is recognised, time.cpp prints the day without the clock time when the text of the time is not longer than the word and its blanks, and the reference date at the clock time - losing the day - when it is longer.", "quantifier": "all texts before, between and after, letter cases, numbers and kinds of blanks, clock times, reference moments, environments and sorts of equal indices; no bound on the length but 2^31", "why_tests_cant": "unboundedly many texts; the answer depends on every parser and every refiner together", "anchors": ["time.cpp: main", "src/parsers/en/ENTimeExpressionParser.hpp", "src/refiners/en/ENMergeDateAndTimeRefiner.hpp", "src/refiners/en/ENMergeDateRangeRefiner.hpp", "src/refiners/OverlapRemovalRefiner.hpp", "src/result.cpp: toDate"]}
{"id": "C113", "title": "A day that carries its own hour ignores a clock time after it", "statement": "If a text contains now, an ISO date with a time, or a holiday, later a clock time standing clear, no zone abbreviation after the time, no connecting word (and, to, through, -) between the two, and nothing else is recognised, time.cpp prints the moment of the first phrase (a holiday at midnight); the clock time is ignored.", "quantifier": "all texts before, between and after, letter cases, phrases of the three kinds, clock times, reference moments, environments and sorts of equal indices; no bound on the length but 2^31", "why_tests_cant": "unboundedly many texts; the answer depends on every parser and every refiner together", "anchors": ["time.cpp: main", "src/parsers/en/ENTimeExpressionParser.hpp", "src/refiners/en/ENMergeDateAndTimeRefiner.hpp", "src/refiners/en/ENMergeDateRangeRefiner.hpp", "src/refiners/OverlapRemovalRefiner.hpp", "src/result.cpp: toDate", "src/parsers/en/ENUSHolidaysParser.hpp", "src/parsers/parsers.cpp: Parser::execute", "src/parsers/en/ENISOFormatParser.hpp", "src/parsers/parsers.cpp: Parser::execute"]}
{"id": "C114", "title": "A clock time ignores a later day that carries its own hour", "statement": "If a text contains a clock time standing clear, later now, an ISO date with a time, or a holiday, no zone abbreviation after the time, no connecting word between the two, and nothing else is recognised, time.cpp prints the reference date at the clock time; the day is ignored.", "quantifier": "all texts before, between and after, letter cases, phrases of the three kinds, clock times, reference moments, environments and sorts of equal indices; no bound on the length but 2^31", "why_tests_cant": "unboundedly many texts; the answer depends on every parser and every refiner together", "anchors": ["time.cpp: main", "src/parsers/en/ENTimeExpressionParser.hpp", "src/refiners/en/ENMergeDateAndTimeRefiner.hpp", "src/refiners/en/ENMergeDateRangeRefiner.hpp", "src/refiners/OverlapRemovalRefiner.hpp", "src/result.cpp: toDate", "src/parsers/en/ENUSHolidaysParser.hpp", "src/parsers/parsers.cpp: Parser::execute", "src/parsers/en/ENISOFormatParser.hpp", "src/parsers/parsers.cpp: Parser::execute"]}
{"id": "C115", "title": "A connecting word anywhere after a day and its time makes a range", "statement": "If a text contains a day phrase, later a clock time standing clear, no zone abbreviation after the time, nothing else is recognised, and a connecting word (and, to, through, -) occurs anywhere after the time - even if no date follows - time.cpp prints a range: it starts at that day at that time and ends at the reference date at that time, or at the start if that is later.", "quantifier": "all texts before, between and after, letter cases, day phrases of every kind that program answers cover, clock times, reference moments, environments and sorts of equal indices; no bound on the length but 2^31", "why_tests_cant": "unboundedly many texts; the answer depends on every parser and every refiner together, and on text after everything recognised", "anchors": ["time.cpp: main", "src/parsers/en/ENTimeExpressionParser.hpp", "src/refiners/en/ENMergeDateAndTimeRefiner.hpp", "src/refiners/en/ENMergeDateRangeRefiner.hpp", "src/refiners/OverlapRemovalRefiner.hpp", "src/result.cpp: toDate"]}
{"id": "C116", "title": "A connecting word anywhere after a clock time and its day makes a range", "statement": "If a text contains a clock time standing clear, later a day phrase, no zone abbreviation after the time, nothing else is recognised, and a connecting word (and, to, through, -) occurs anywhere after the day, time.cpp prints a range: it starts at that day at that time and ends at what the day phrase alone means (midnight, or for yesterday the hour of the reference moment), or at the start if that is later.", "quantifier": "all texts before, between and after, letter cases, phrases of the kinds named, clock times, reference moments, environments and sorts of equal indices; no bound on the length but 2^31", "why_tests_cant": "unboundedly many texts; the answer depends on every parser and every refiner together, and on text after everything recognised", "anchors": ["time.cpp: main", "src/parsers/en/ENTimeExpressionParser.hpp", "src/refiners/en/ENMergeDateAndTimeRefiner.hpp", "src/refiners/en/ENMergeDateRangeRefiner.hpp", "src/refiners/OverlapRemovalRefiner.hpp", "src/result.cpp: toDate"]}
{"id": "C117", "title": "A connecting word anywhere after a month-day date and a clock time makes a range", "statement": "If a text contains a date such as March 5 and a clock time in either order, nothing else is recognised, and a connecting word occurs anywhere after both, time.cpp prints a range that starts at that day and time; with the date first it ends at the reference date at that time (or the start if later), with the time first at the same moment.", "quantifier": "all texts before, between and after, letter cases, phrases of the kinds named, clock times, reference moments, environments and sorts of equal indices; no bound on the length but 2^31", "why_tests_cant": "unboundedly many texts; the answer depends on every parser and every refiner together, and on text after everything recognised", "anchors": ["time.cpp: main", "src/parsers/en/ENMonthNameMiddleEndianParser.hpp: extract", "src/parsers/en/ENTimeExpressionParser.hpp", "src/refiners/en/ENMergeDateAndTimeRefiner.hpp", "src/refiners/OverlapRemovalRefiner.hpp"]}
{"id": "C118", "title": "A connecting word anywhere after a month name and a clock time makes a range", "statement": "If a text contains a month name (with or without a year) and a clock time in either order, nothing else is recognised, and a connecting word occurs anywhere after both, time.cpp prints a range that starts on the first day of that month at that time; with the month first it ends at the reference date at that time (or the start if later), with the time first at the same moment.", "quantifier": "all texts before, between and after, letter cases, phrases of the kinds named, clock times, reference moments, environments and sorts of equal indices; no bound on the length but 2^31", "why_tests_cant": "unboundedly many texts; the answer depends on every parser and every refiner together, and on text after everything recognised", "anchors": ["time.cpp: main", "src/parsers/en/ENMonthNameParser.hpp: extract", "src/refiners/OverlapRemovalRefiner.hpp", "src/result.cpp: toDate", "src/parsers/en/ENTimeExpressionParser.hpp", "src/refiners/en/ENMergeDateAndTimeRefiner.hpp", "src/refiners/en/ENMergeDateRangeRefiner.hpp"]}
{"id": "C119", "title": "Two clock times joined by a connecting word are answered as a range", "statement": "If a text contains two clock times, each standing clear, no zone abbreviation after either, a connecting word (and, to, through, -) occurs anywhere between them, and nothing else is recognised, time.cpp prints the range on the reference date from the first time to the second - or to the first again if the second is earlier.", "quantifier": "all texts before, between and after, letter cases, clock times, reference moments, environments and sorts of equal indices; no bound on the length but 2^31", "why_tests_cant": "unboundedly many texts; the answer depends on every parser and every refiner together", "anchors": ["time.cpp: main", "src/refiners/en/ENMergeDateRangeRefiner.hpp", "src/refiners/en/ENMergeDateAndTimeRefiner.hpp", "src/refiners/OverlapRemovalRefiner.hpp", "src/result.cpp: toDate"]}
{"id": "C120", "title": "Of two clock times that are not joined only the first is answered", "statement": "If a text contains two clock times, each standing clear, no zone abbreviation after either, no connecting word between them, and nothing else is recognised, time.cpp prints the reference date at the first time; the second is ignored.", "quantifier": "all texts before, between and after, letter cases, clock times, reference moments, environments and sorts of equal indices; no bound on the length but 2^31", "why_tests_cant": "unboundedly many texts; the answer depends on every parser and every refiner together", "anchors": ["time.cpp: main", "src/refiners/en/ENMergeDateRangeRefiner.hpp", "src/refiners/en/ENMergeDateAndTimeRefiner.hpp", "src/refiners/OverlapRemovalRefiner.hpp", "src/result.cpp: toDate"]}
{"id": "C121", "title": "A casual time, deadline or week phrase after a day is taken for a time of day", "statement": "If a text names a day without a time (a casual date other than 'now', an ISO date, a deadline, a week phrase or a month-day date), later contains a casual time ('this evening'), a deadline ('in 5 days', 'in 2 hours') or a week phrase ('next week') with no connecting word after it, and nothing else is recognised, time.cpp prints the first day with the clock of the second phrase (midnight for days, weeks and longer) - even if a connecting word stands between them: no range is ever printed.", "quantifier": "all texts before, between and after, phrases, blanks, letter cases, reference moments, environments and sorts of equal indices; no bound on the length but 2^31", "why_tests_cant": "unboundedly many texts; the answer depends on every parser and every refiner together", "anchors": ["time.cpp: main", "src/refiners/en/ENMergeDateRangeRefiner.hpp", "src/refiners/en/ENMergeDateAndTimeRefiner.hpp", "src/refiners/OverlapRemovalRefiner.hpp", "src/result.cpp: toDate"]}
{"id": "C122", "title": "A casual time, deadline or week phrase before a certain day is taken for a time of day", "statement": "If a text contains a casual time ('this evening'), a deadline or a week phrase and later a certain day without a time (a casual date other than 'now', an ISO date or a month-day date), no connecting word after that, and nothing else is recognised, time.cpp prints the second day with the clock of the first phrase; the date the first phrase means is lost.", "quantifier": "all texts before, between and after, phrases, blanks, letter cases, reference moments, environments and sorts of equal indices; no bound on the length but 2^31", "why_tests_cant": "unboundedly many texts; the answer depends on every parser and every refiner together", "anchors": ["time.cpp: main", "src/refiners/en/ENMergeDateRangeRefiner.hpp", "src/refiners/en/ENMergeDateAndTimeRefiner.hpp", "src/refiners/OverlapRemovalRefiner.hpp", "src/result.cpp: toDate"]}
{"id": "C123", "title": "A connecting word after a day and a casual time, deadline or week phrase makes a spurious range", "statement": "In the situation of C121, if a connecting word (and, to, through, -) occurs anywhere after the second phrase, time.cpp prints a range from the first day with the clock of the second phrase to the moment the second phrase is answered with, or to the start again if that is later.", "quantifier": "all texts before, between and after, phrases, blanks, letter cases, reference moments, environments and sorts of equal indices; no bound on the length but 2^31", "why_tests_cant": "unboundedly many texts; the answer depends on every parser and every refiner together", "anchors": ["time.cpp: main", "src/refiners/en/ENMergeDateRangeRefiner.hpp", "src/refiners/en/ENMergeDateAndTimeRefiner.hpp", "src/refiners/OverlapRemovalRefiner.hpp", "src/result.cpp: toDate"]}
{"id": "C124", "title": "A connecting word after a casual time, deadline or week phrase and a day makes a spurious range", "statement": "In the situation of C122, if a connecting word occurs anywhere after the day, time.cpp prints a range from that day with the clock of the casual time, deadline or week phrase to what the day phrase alone means, or to the start again if that is later.", "quantifier": "all texts before, between and after, phrases, blanks, letter cases, reference moments, environments and sorts of equal indices; no bound on the length but 2^31", "why_tests_cant": "unboundedly many texts; the answer depends on every parser and every refiner together", "anchors": ["time.cpp: main", "src/refiners/en/ENMergeDateRangeRefiner.hpp", "src/refiners/en/ENMergeDateAndTimeRefiner.hpp", "src/refiners/OverlapRemovalRefiner.hpp", "src/result.cpp: toDate"]}
{"id": "C125", "title": "Two phrases, one with its own hour, joined by a connecting word are answered as a range", "statement": "If a text contains two phrases (casual date or time, deadline, ISO date, holiday, week phrase), one of which has its own hour ('now', an ISO date with a time, a holiday), a connecting word (and, to, through, -) occurs anywhere between them, and nothing else is recognised, time.cpp prints the range from the first moment to the second - or to the first again if the second is earlier.", "quantifier": "all texts before, between and after, phrases, blanks, letter cases, reference moments, environments and sorts of equal indices; no bound on the length but 2^31", "why_tests_cant": "unboundedly many texts; the answer depends on every parser and every refiner together", "anchors": ["time.cpp: main", "src/refiners/en/ENMergeDateRangeRefiner.hpp", "src/refiners/en/ENMergeDateAndTimeRefiner.hpp", "src/refiners/OverlapRemovalRefiner.hpp", "src/result.cpp: toDate"]}
{"id": "C126", "title": "Of two phrases, one with its own hour, that are not joined only the first is answered", "statement": "If a text contains two phrases (casual date or time, deadline, ISO date, holiday, week phrase), one of which has its own hour ('now', an ISO date with a time, a holiday), no connecting word between them, and nothing else is recognised, time.cpp prints the moment of the first phrase; the second is ignored.", "quantifier": "all texts before, between and after, phrases, blanks, letter cases, reference moments, environments and sorts of equal indices; no bound on the length but 2^31", "why_tests_cant": "unboundedly many texts; the answer depends on every parser and every refiner together", "anchors": ["time.cpp: main", "src/refiners/en/ENMergeDateRangeRefiner.hpp", "src/refiners/en/ENMergeDateAndTimeRefiner.hpp", "src/refiners/OverlapRemovalRefiner.hpp", "src/result.cpp: toDate"]}
{"id": "C127", "title": "A clock time after a casual time, deadline or week phrase replaces its hour", "statement": "If a text contains a casual time ('this evening'), a deadline ('in 5 hours', 'in 3 days') or a week phrase ('next week'), later a clock time standing clear, no zone abbreviation and no connecting word (and, to, through, -) after the time, and nothing else is recognised, time.cpp prints the clock time on the day the first phrase is taken for (for hours, minutes and seconds always the reference date); its hour is dropped.", "quantifier": "all texts before, between and after, phrases, blanks, letter cases, reference moments, environments and sorts of equal indices; no bound on the length but 2^31", "why_tests_cant": "unboundedly many texts; the answer depends on every parser and every refiner together", "anchors": ["time.cpp: main", "src/parsers/en/ENTimeExpressionParser.hpp", "src/refiners/en/ENMergeDateAndTimeRefiner.hpp", "src/refiners/en/ENMergeDateRangeRefiner.hpp", "src/refiners/OverlapRemovalRefiner.hpp", "src/result.cpp: toDate"]}
{"id": "C128", "title": "A clock time before a casual time, deadline or week phrase replaces its hour", "statement": "If a text contains a clock time standing clear, later a casual time ('this evening'), a deadline ('in 5 hours', 'in 3 days') or a week phrase ('next week'), no zone abbreviation after the time, no connecting word after the phrase, and nothing else is recognised, time.cpp prints the clock time on the day the phrase is taken for (for hours, minutes and seconds always the reference date); its hour is dropped.", "quantifier": "all texts before, between and after, phrases, blanks, letter cases, reference moments, environments and sorts of equal indices; no bound on the length but 2^31", "why_tests_cant": "unboundedly many texts; the answer depends on every parser and every refiner together", "anchors": ["time.cpp: main", "src/parsers/en/ENTimeExpressionParser.hpp", "src/refiners/en/ENMergeDateAndTimeRefiner.hpp", "src/refiners/en/ENMergeDateRangeRefiner.hpp", "src/refiners/OverlapRemovalRefiner.hpp", "src/result.cpp: toDate"]}
{"id": "C129", "title": "A connecting word after a casual time, deadline or week phrase and a clock time makes a spurious range", "statement": "In the situation of C127, if a connecting word occurs anywhere after the clock time, time.cpp prints a range from the clock time on the day of the phrase to the clock time on the reference date, or to the start again if that is later.", "quantifier": "all texts before, between and after, phrases, blanks, letter cases, reference moments, environments and sorts of equal indices; no bound on the length but 2^31", "why_tests_cant": "unboundedly many texts; the answer depends on every parser and every refiner together", "anchors": ["time.cpp: main", "src/parsers/en/ENTimeExpressionParser.hpp", "src/refiners/en/ENMergeDateAndTimeRefiner.hpp", "src/refiners/en/ENMergeDateRangeRefiner.hpp", "src/refiners/OverlapRemovalRefiner.hpp", "src/result.cpp: toDate"]}
{"id": "C130", "title": "A connecting word after a clock time and a casual time, deadline or week phrase makes a spurious range", "statement": "In the situation of C128, if a connecting word occurs anywhere after the phrase, time.cpp prints a range from the clock time on the day of the phrase to the moment the phrase alone is answered with, or to the start again if that is later.", "quantifier": "all texts before, between and after, phrases, blanks, letter cases, reference moments, environments and sorts of equal indices; no bound on the length but 2^31", "why_tests_cant": "unboundedly many texts; the answer depends on every parser and every refiner together", "anchors": ["time.cpp: main", "src/parsers/en/ENTimeExpressionParser.hpp", "src/refiners/en/ENMergeDateAndTimeRefiner.hpp", "src/refiners/en/ENMergeDateRangeRefiner.hpp", "src/refiners/OverlapRemovalRefiner.hpp", "src/result.cpp: toDate"]}
{"id": "C131", "title": "A deadline in hours, minutes or seconds keeps the reference date in the answer", "statement": "If a text contains 'in' or 'within' an amount of hours, minutes or seconds (at most 2^24) and nothing else is recognised, time.cpp prints the clock time that long after the reference moment, but always on the reference date: the date is wrong whenever midnight is crossed.", "quantifier": "all texts before and after, amounts, units, blanks, letter cases, reference moments, environments and sorts of equal indices; no bound on the length but 2^32", "why_tests_cant": "unboundedly many texts and moments; the answer depends on every parser and every refiner together", "anchors": ["time.cpp: main", "src/parsers/en/ENDeadlineFormatParser.hpp: extract", "src/result.cpp: toDate"]}
{"id": "C132", "title": "Half a day from now crosses midnight correctly", "statement": "If a text contains 'in half a day' or the like and nothing else is recognised, time.cpp prints the date, hour and minute twelve hours after the reference moment, with second 0.", "quantifier": "all texts before and after, amounts, units, blanks, letter cases, reference moments, environments and sorts of equal indices; no bound on the length but 2^32", "why_tests_cant": "unboundedly many texts and moments; the answer depends on every parser and every refiner together", "anchors": ["time.cpp: main", "src/parsers/en/ENDeadlineFormatParser.hpp: extract", "src/result.cpp: toDate"]}
