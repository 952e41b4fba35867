# Formal model of chrono-cpp in Coq — design

## 1. What is modelled and how

The C++ sources in `/repo` are transcribed, function by function, into total computable Gallina
functions. Every definition carries a comment with the file and lines it models.

| Coq file (rocq/theories) | models |
|---|---|
| `Base.v` | bytes, C `tolower`/`toupper`/`isdigit` in the "C" locale, `std::string::find/substr`, `std::stoi/stof`, outcomes (return / exception / undefined behaviour), the global state monad |
| `Regex.v`, `RegexParse.v` | libstdc++ `std::regex` (ECMAScript): pattern compilation and the depth-first backtracking executor, `regex_search`, `regex_match`, sub-matches |
| `Calendar.v` | the parts of Boost.Date_Time that are called: `gregorian::date`, `days/weeks/months/years`, n-th/last/first weekday generators, `posix_time::ptime`, `ptime_from_tm`, `to_simple_string` |
| `Components.v` | `src/result.{hpp,cpp}` |
| `Utils.v` | `src/utils/utils.{hpp,cpp}` |
| `Execute.v` | `src/parsers/parsers.{hpp,cpp}` |
| `P_*.v` | one file per parser in `src/parsers/en/` |
| `Refiners.v` | the four refiners |
| `Main.v` | `time.cpp`, from the string and the reference moment to the printed line |
| `Reference.v` | the command line of `time.cpp` (usage, one or two arguments) and Boost's `posix_time::time_from_string` |
| `Spec.v` | the small, independent specification vocabulary (calendar, weekdays, moments, how they are written); mentions no model definition |
| `View.v` | how a model object is read in that vocabulary (`certain`, `implied_is`, `untouched`, `denotes`) |
| `ParserSpec.v`, `PhraseSpec.v`, `WeekSpec.v`, `RelativeSpec.v`, `ClockSpec.v`, `MiddleSpec.v` | what the phrases of each family look like and mean, without reference to the model's parsers |
| `Template.v`, `RegexFacts.v`, `Symbolic.v`, `Open.v`, `ShapeRun.v`, `Segments.v`, `MatchFacts.v` | the theory of the matcher: declarative semantics (soundness, languages, lengths) and *symbolic runs*: one evaluation of the matcher stands for all texts of a shape (any digit, any run of blanks, any continuation) |
| `CalendarCycle.v`, `CalendarFacts.v`, `ResultFacts.v`, `ExecuteFacts.v`, `LocateFacts.v`, `HistoryFacts.v`, `FuelFacts.v`, `ParserFacts.v`, `NumberFacts.v` | lemmas about the calendar, results, the loop of `execute`, the word table, termination, numbers |
| `Alphabet.v` | emptiness of a pattern over an alphabet and a set of forbidden words; derivatives; when one parser's whole-text result is the program's answer |
| `*Facts.v`, `*Runs.v`, `*Family.v`, `MiddleMatch.v`, `MiddleMean.v` | lemmas for one parser or refiner |
| `Prop_*.v` | the property theorems, each with `Print Assumptions` and a non-vacuity `Example` |

### Outcomes
`outcome A := Ret a | Throw e | UB k | Unmodelled | OutOfFuel`. Undefined behaviour (reading an
uninitialised `char`, a dangling reference, a float-to-int overflow) is a distinct outcome, as are
exceptions that leave the function. Reads of memory that the standard leaves undefined but that in
practice return *some* value are resolved by an oracle record `env`, over which theorems quantify:
`None` means "treat as UB".

### Global state
The non-const `static std::map INTEGER_WORDS` is mutated by `operator[]` in
`ENWeekExperessionParser.hpp:33`; it is an explicit state threaded through every call. The other maps
(`MONTH_CONSTANTS`, `WEEKDAY_OFFSET`, `ORDINAL_WORDS`) are only ever read through `operator[]`
(an absent key is inserted with value 0 and reads 0 again ever after), so a pure lookup with default 0
is the exact observable behaviour; this is said at their definition.

### Regular expressions
Patterns are the verbatim pattern strings of the code, compiled by `RegexParse.v` (an ill-formed
pattern compiles to `None` = `std::regex_error`). The matcher is a continuation-passing backtracking
matcher with libstdc++'s priorities. A declarative semantics (`RegexFacts.v`) is proved equivalent,
so that theorems over all texts can be derived.

### Dates
A Boost date is its day number; `year()/month()/day()` use Boost's own algorithms and throw outside
1400..9999. `Spec.v` defines the Gregorian calendar independently (leap years, month lengths, day
count from the first of January of year 1); `CalendarFacts.v` proves Boost's arithmetic correct
against it for every day.

## 2. Trusted base
* Coq 8.16.1's kernel, with `vm_compute` (`coqchk`, which has no VM, re-checks the same conversions lazily; for that reason
  the symbolic runs are kept few and small). `native_compute` is not used.
* Axioms: none. `Print Assumptions` stands under every theorem; each prints "Closed under the global context". (A listing of all
  axioms *loaded* may name `Coq.Logic` axioms of library files that are transitively required; no theorem here depends on them.)
* The reading of the C++ source into Gallina (every definition cites the lines it models), of libstdc++'s `<regex>` executor, and of
  Boost.Date_Time's algorithms; neither library is in `/repo`. In particular month arithmetic follows Boost's end-of-month rule
  ("the last day of a month stays the last day"), which `Spec.months_after` states in words.
* Modelled: `src/result.{hpp,cpp}`, `src/utils/utils.{hpp,cpp}`, `src/parsers/parsers.{hpp,cpp}`, all thirteen parsers in
  `src/parsers/en/`, the four refiners, `time.cpp` including the command line.
* Not modelled: allocation failure, `std::cerr` output, locales other than "C" (bytes above 127 are not letters, digits or
  blanks there), regex stack overflow on very long texts (libstdc++ recurses), special dates (`not_a_date_time`, infinities),
  year arithmetic beyond the `Unmodelled` bounds stated in `Calendar.v` (a theorem whose conclusion is `Ret` excludes them), the wall
  clock (the value of `second_clock::local_time()` is a parameter), the order `std::sort` gives to elements with equal keys (theorems quantify over all
  sorts), reads of uninitialised or dangling memory (the oracle `env`, over which theorems quantify), integer overflow of `long`
  indices for texts of 2^63 bytes.

## 3. Properties: plan
* **C01** (Component reads return the last write): history = list of set/imply operations folded over the map model; spec = fold over an abstract pair (last set, last implied); induction.
* **C02** (Implied values never override certain ones): corollary of the same invariant.
* **C03** (isCertain tells exactly which fields were set): proved for seven names; refuted for `min` (key slip), `_partial` + `_refuted`.
* **C04** (Unknown component names are inert): case analysis on the string comparison chain.
* **C05** (Copying or assigning a result preserves it): copy/assign functions; equality of all observers.
* **C06** (Tags can be set and read back): tags as an association list with insert-if-absent; refuted by query-before-set; exact characterisation over histories.
* **C07** (Parsers only return results that carry a date or time): invariant of the execute loop.
* **C08** (isPossibleDate accepts exactly the real calendar moments): refuted: the year is not rebased; proved that it is false for every real moment with its true weekday.
* **C09** (toDate renders exactly the stored moment): rendering against an independent formatter; injectivity.
* **C10** (toDate never throws on a parser result): refuted (ISO 30 February, "25:12:30"); proved parser by parser that what the other results say is a real date, hence renders.
* **C11** (A time-zone shift applies to both ends of a range): start proved for all offsets; end refuted.
* **C12** (Parsing terminates on every text): min-length analysis of the regex + loop measure: the fuel |text|+1 never runs out.
* **C13** (Results come out in text order without overlapping): loop invariant.
* **C14** (A result's index and text locate the match): proved for the parsers that use match.str(0); refuted for the two that cut group 1.
* **C15** (Parsing ignores letter case): idempotence of lower-casing.
* **C16** (execute visits every successive match): loop = recursive specification via declarative leftmost match.
* **C17** (The answer does not depend on earlier calls): refuted (Week then Deadline `half`); proved for all other parsers, and for all histories without unknown week words.
* **C18** (Casual dates mean what they say): finite-language lemma for the pattern + calendar correctness.
* **C19** ("tomorrow" is the next calendar day): refuted at hour 0, proved for hour >= 1.
* **C20** (Casual times of day keep the reference date): capture soundness + finite language.
* **C21** (Weekday names are recognised): refuted: pattern is not a regex, so the parser returns [] for all texts.
* **C22** (Weekday resolution picks the right day): calendar correctness, all dates/weekdays/modifiers.
* **C23** ("in N days/weeks/months/years" adds exactly N): capture soundness, calendar correctness.
* **C24** ("in N hours/minutes/seconds" gives the moment N units later): refuted across midnight; proved otherwise.
* **C25** (Unit abbreviations mean the same as full units): refuted; characterisation of what abbreviations do.
* **C26** (The deadline parser never throws): refuted (year out of range); proved when the result is in range.
* **C27** (ISO dates round-trip): regex run on all digit strings by a shape lemma.
* **C28** (ISO date-times and offsets round-trip): as C27; the sign rule refuted for -00:MM.
* **C29** (ISO parser rejects impossible dates): month/day ranges proved for all texts; real-date part refuted.
* **C30** (US holidays fall on the right date every year): n-th weekday generators against the independent spec, all years.
* **C31** (Black Friday is the day after Thanksgiving): refuted for every year: exact value is the Saturday.
* **C32** (Christmas, New Year's Eve and Thanksgiving are recognised): refuted: christmas needs a backslash for all texts; eve at end of text.
* **C33** (A bare month name means the nearest such month): nearest-year argument for all dates.
* **C34** (The month-name parser never throws): refuted by `may.`; otherwise proved.
* **C35** ("Month day" results have a valid month and day number): capture soundness, range check.
* **C36** ("Month day year" uses the written year): refuted at the end of the text and after a comma; proved by a symbolic run for every month, day, year and continuation by a word.
* **C37** (The month-day parser never throws): refuted for Feb 29.
* **C38** ("last/next N weeks" moves by 7N days): calendar correctness.
* **C39** ("N units ago" is recognised): refuted: every match contains a backslash.
* **C40** ("N units later / from now" is recognised): refuted likewise.
* **C41** ("this week/month/year" is the enclosing calendar range): calendar correctness, all dates.
* **C42** ("next/last N units" moves by N units): digits proved; number words refuted.
* **C43** (Clock times stay on the clock): case analysis over captures.
* **C44** (Clock ranges never read uninitialised or dangling memory): refuted: witnesses for both reads.
* **C45** (Clock ranges resolve am/pm on both ends): under a benign oracle, all hours.
* **C46** (Overlap removal returns a non-overlapping subset): list induction.
* **C47** (Overlap removal only drops what is covered): refuted by a three-chain.
* **C48** (Time-zone extraction changes only time-zone data): map-like structure of the loop; frame conditions.
* **C49** (A zone abbreviation after a clock time is honoured): refuted mid-text.
* **C50** (Merging a date and a time keeps date fields and takes time fields): component algebra.
* **C51** (Merging dates and times neither loses nor repeats results): refuted: duplicated last element; exact output proved.
* **C52** (Merged ranges run from the earlier to the later date): ordered proved; reversed refuted.
* **C53** (The range refiner neither loses nor repeats results): refuted; exact output proved.
* **C54** (The program prints the date of the first result): pipeline theorem; today/yesterday/tomorrow for all references.
* **C55** (The printed answer is determined by the input): refuted on `noon`; holds when indices are distinct.
* **C56** (Ordinal words convert to their numbers): normalisation lemma for regex_replace.
* **C57** (Unit fragments are collected from every text): fuel bound; amounts.
* **C58** (Casual-date text is recognised wherever it stands): completeness of the matcher for contexts.
* **C59** (Only results joined by a connective are merged): refuted for dates and times (the pattern is never used); for ranges an iff on the text between.
* **C60** (Merging a date with a zoned time keeps the zone): refuted; exact offset and tag of the merged result.
* **C61** (The ISO parser never throws): every stoi in the parser sees at most four digits: capture languages; always returns.
* **C62** (The holiday parser never throws): calendar totality for every reference year.
* **C63** (A unit phrase is read the same wherever it stands): refuted by 'about 12 days'.
* **C64** (The clock parser always returns): under every calm environment each branch of the clock parser returns; oracle reads made explicit.
* **C65** (A text that is a clock time is read as that time): symbolic runs of the clock pattern, part by part (Segments.v), over all digit shapes and blanks.
* **C66** (Clock results record only what is written): capture soundness: from a match back to the written clock time; components from the extraction code.
* **C67** (Inside the program the parsers do not influence one another): the word table is only written by the last parser, so each parser runs as if alone; induction over the parser list.
* **C68** (Month-day results record only what is written): capture soundness for month-day texts.
* **C69** (A plainly written month-day date followed by a word is found): symbolic run with an open tail: the match is found and is the first one.
* **C70** (The reference date on the command line is read exactly): tokenizer and lexical_cast lemmas; six digit strings of any length.
* **C71** (Printed dates can be given back as reference dates): as C70, with the month abbreviation.
* **C72** (The command line selects the reference): case analysis on the argument vector, C70, C71, C54.
* **C73** (A result's tag names the parser that made it): a small Hoare-style walk over every extraction function: the tag map is empty until the final setTag.
* **C74** (The program answers deadlines correctly): C23/C24 for the deadline parser; every other parser is shown silent by emptiness of its pattern over the vocabulary of the phrase (`Alphabet.v`), the clock parser to return only shorter matches; then overlap removal.
* **C75** (The program answers ISO dates correctly): likewise, over the alphabet of ISO texts.
* **C76** (The program answers weeks correctly): C38 plus emptiness of the other patterns over the vocabulary.
* **C77** (The program answers clock times correctly): C65 plus emptiness of the other patterns.
* **C78** (The program answers months correctly): C33; the month-day, ISO and clock patterns are excluded by running their derivatives over the shapes of the texts.
* **C79** (The program answers clock ranges correctly): C45; the ISO pattern is excluded because it needs two hyphens.
* **C80** (The program answers holiday names correctly): C30 plus emptiness of the other patterns on the finitely many names.
* **C81** (The refiners always return): induction over the three refiner loops with 'inside the text and dated' as invariant (TotalFacts.v).
* **C82** (The program always answers): totality of each parser on sensible texts (SenseSpec.v), the bounds each parser's results satisfy, and an invariant of the refiners under which toDate returns.
* **C83** (What every ISO result says): every match of the pattern is read back as a written date (ISOShape.v), then the extraction is computed on it.
* **C84** (The week parser always returns): as C38, with the word table as invariant of the scan loop.
* **C85-C89** (phrases are found wherever they stand): FoundFacts.v: the scan loop reaches every place of the text unless a match runs over it; a match that begins before the phrase cannot run into it (a decidable condition on the pattern, `no_straddle`, or an argument on the words), and at the place itself the pattern takes the whole phrase.
* **C90** (The program finds every such phrase): C85-C89, C54 and C67.
* **C91** (Times of day are found wherever they stand): some match covers the word (FoundFacts.found_over), and only 'this' and blanks can precede the word in it.
* **C92** (A phrase in a sentence is answered like the phrase alone): C85-C91 for the result of the phrase, and the overlap refiner keeps exactly that result; the other refiners leave a lone result alone.
* **C93** (Clock times are found wherever they stand): the pattern is run symbolically on the time and a symbolic tail (FoundClock.clock_taken); an automaton shows that no match that begins earlier can reach over the blank before the time without a connecting word (reaches_over); induction over the scan.
* **C94** (A clock time in a sentence is answered): C93, the overlap refiner keeps exactly that result, and the character the position is off by cannot make a zone of what follows.
* **C95** (A clock time with a zone in a sentence is answered in that zone): as C94, with the zone refiner's specification (C48) for the one remaining result.
* **C96** (A day and a clock time in one text are answered together): the day phrase stands (C85 - C89), the time stands (C93); the overlap refiner keeps exactly the two (the sorted list splits at the time), the date-time refiner merges them and repeats the time (C59, C50), and the range refiner then looks for a connecting word in the whole rest of the text. False in general; proved where the rest has none.
* **C97** (Two dates joined by a connecting word are answered as a range): both phrases stand (C92's phrases); the overlap refiner keeps exactly the two, the date-time refiner leaves two certain dates alone, and the range refiner finds the word between them (the blanks a casual date swallows contain none) and merges them (C52).
* **C98** (A plainly written month-day date is found anywhere in a text): the pattern's successful runs from any place before the phrase are followed to the month name; none of them reaches into the phrase unless a weekday name stands right before it, so the scan arrives at the phrase, and there C35's runs give the match and its meaning.
* **C99** (The program answers a text with one month-day date): C98, then the overlap refiner keeps only that result (as in C92) and toDate prints it.
* **C100**, **C101** (A month-day date with a clock time; two month-day dates): C98 gives the results; the arguments of C96 and C97 (pair_main, range_core) do not depend on the parser of the date.
* **C102**, **C103** (Month names in running text): MonthSpec.v says what may stand before, in and after; FoundMonth.v runs the pattern symbolically over every spelling, separator, era and class of following character (`month_taken`), shows that the prefix alternative `\D\s+|[^\w\s]` takes exactly the sign and blanks before it (`lead_then`), and that no earlier match reaches in (`none_before_month`); C103 is C99's argument with that result.
* **C104**, **C105** (Time first, then the day): the mirror image of C96 and C100: the merging refiner takes the pair in either order (`mdt_time_first`), the merged result runs from the time to the end of the date and the leftover copy is the date, so only what follows the date can turn the answer into a range.
* **C106**, **C107**, **C108** (Month names with times, and two months): a month name's reported place begins at the sign before it, so in C106/C107 the pair theorems of C96/C104 are applied to the text cut at the believed places; in C108 the refiners are evaluated on the pair (`refined_apart`) and the believed gap is shown, from the last two characters of every month and year and the first letters of the connecting word, to hold no connecting word.
* **C109**, **C110** (Two dates of any kinds): the relation `dated` collects the phrases with a certain day (those of C92 from casual dates, ISO dates and holidays; the month-day dates of C98); with a connecting word in between, `range_core` gives the range, without one `apart_core` gives the first date alone.
* **C111**, **C112** (tomorrow / yesterday before a blank): the pattern of casual dates takes all the blanks after these words when a word character follows (`swallow_run`, a computation of the matcher for blanks of any number), so the result is longer than the word. If the clock time starts later, `pair_main` (C96) merges them; if it starts at those blanks, `overlap_touching` shows that the overlap refiner keeps the longer one only.
* **C113**, **C114** (a day with its own hour beside a clock time): the relation `fixed_says` collects the phrases whose result has a certain hour (now, ISO date-times, holidays); two results with certain hours are not merged (`mdt_hours`), and without a connecting word between them no range is made, so the first is printed.
* **C115** (a connecting word after a day and its time): `refined_two_linked` follows the two results through the zone, date-time and range refiners when the tail of the text contains a connector: the merged result and the consumed time are both kept, and the range refiner joins them.
* **C116**-**C118** (the same with the time first, with month-day dates and with month names): `refined_time_linked` is the counterpart of C115's lemma for the time first, where the consumed result that ends the range is the day's; `later_midnight` shows that midnight of the same day is never later.
* **C119**, **C120** (two clock times): `times_core` locates both results (C93) and reduces the program to its refiners on exactly these two; two results with certain hours are never merged (`mdt_hours`), and `connector_before` shows that a connecting word cannot reach into the blank and "at"/"from" that belong to the second result, so the range refiner sees it exactly when it stands between the times.
* **C121**, **C122** (a day beside a casual time, deadline or week phrase): every date a casual time ("this evening"), a deadline or a week phrase sets is implied only (`vague_time_only`), so the merge refiner takes it for a time of day. `pair_of` reduces the program to its refiners on exactly two results, whatever these make of them; `refined_two` and `refined_vague_first` (the variant for a time-only first result before a date with a certain month) give the merged moment.
* **C123**, **C124** (the same with a connecting word after the second phrase): the merged result and the second result stay next to each other in the list, so the range refiner looks for a connecting word in the rest of the text; `refined_two_linked` and `refined_vague_linked` give the range, `word_remains` that blanks eaten by the second result take nothing from the word.
* **C125**, **C126** (two phrases, one with its own hour): a result with a certain hour and a certain month is neither date-only nor time-only, so the merge refiner leaves the pair alone (`mdt_unmerged`); `pair_between` reduces the program to its refiners on exactly the two results and says what text is between them, which decides the range refiner.
* **C127**-**C130** (a casual time, deadline or week phrase beside a clock time, without and with a connecting word after both): `vague_found` shows that these phrases are reported exactly where they stand, `vague_result` that no clock field of theirs is certain, so (with `suggests` for what the phrase is taken for, deadlines past midnight included) `pair_main`, `time_day_main`, `pair_linked` and `time_day_linked` apply to them as to the day phrases of C96, C104, C115 and C116.
* **C131**, **C132** (deadlines past midnight in a sentence): `single_main` is the argument of C92 for any phrase whose parser finds it and any moment its result denotes; the results of C86 denote the clock time on the reference date (hours, minutes, seconds) or the moment twelve hours later (half a day).

Statements that are false of the code are kept in full in `properties.jsonl`; the model then carries
a `…_refuted` theorem with a concrete witness and the strongest true part as `…_partial`.
