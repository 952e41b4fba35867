(** * src/parsers/en/ENMonthNameMiddleEndianParser.hpp *)
From Verif Require Import Base Regex RegexParse Calendar Components Utils Execute P_MonthName.

(** ENMonthNameMiddleEndianParser.hpp:29-60, piece by piece *)
Definition middle_endian_pattern : bytes :=
  bs "(\b)" ++
  bs "(?:" ++
  bs "(?:on\s*?)?" ++
  bs "(Sun(?:day)?|Mon(?:day)?|Tue(?:s(?:day)?)?|Wed(?:nesday)?|Thu(?:r(?:s(?:day)?)?)?|Fri(?:day)?|Sat(?:urday)?)\s*,?\s*)?" ++
  bs "(Jan(?:uary|\.)?|Feb(?:ruary|\.)?|Mar(?:ch|\.)?|Apr(?:il|\.)?|May\.?|Jun(?:e|\.)?|" ++
  bs "Jul(?:\.|y)?|Aug(?:ust|\.)?|Sep(?:\.|t(?:\.|ember)?)?|Oct(?:ober|\.)?|Nov(?:\.|ember)?|Dec(?:ember|\.)?)" ++
  bs "(?:-|\/|\s*,?\s*)(([0-9]{1,2})" ++
  bs "(?:st|nd|rd|th)?|" ++
  bs "first|second|third|fourth|fifth|sixth|seventh|eighth|ninth|tenth|" ++
  bs "eleventh|twelfth|thirteenth|fourteenth|fifteenth|sixteenth|seventeenth|eighteenth|nineteenth|twentieth|" ++
  bs "twenty[ -]first|twenty[ -]second|twenty[ -]third|twenty[ -]fourth|twenty[ -]fifth|twenty[ -]sixth|twenty[ -]seventh|twenty[ -]eighth|twenty[ -]ninth|thirtieth" ++
  bs "|thirty[ -]first" ++
  bs ")" ++
  bs "(?!\s*" ++
  bs "(?:am|pm))\s+" ++
  bs "(?:" ++
  bs "(?:to|\-)\s*" ++
  bs "(([0-9]{1,2})" ++
  bs "(?:st|nd|rd|th)?|" ++
  bs "first|second|third|fourth|fifth|sixth|seventh|eighth|ninth|tenth|" ++
  bs "eleventh|twelfth|thirteenth|fourteenth|fifteenth|sixteenth|seventheenth|eighteenth|nineteenth|twentieth|" ++
  bs "twenty[ -]first|twenty[ -]second|twenty[ -]third|twenty[ -]fourth|twenty[ -]fifth|twenty[ -]sixth|twenty[ -]seventh|twenty[ -]eighth|twenty[ -]ninth|" ++
  bs "thirtieth|thirty[ -]first)\s*" ++
  bs ")?" ++
  bs "(?:" ++
  bs "(?:-|\/|\s*,?\s*)(?:([0-9]{4})\s*(BE|AD|BC)?|([0-9]{1,4})\s*(AD|BC))\s+" ++
  bs ")?" ++
  bs "(\b)(?!\:\d)".

(** Lines 77-112: the written year, [-1] when there is none. *)
Definition middle_endian_year (m : mres) : outcome Z :=
  if is_nil (grp m 8) && is_nil (grp m 10) then Ret (-1) else
  let year_s := if is_nil (grp m 10) then grp m 8 else grp m 10 in
  y <- stoi year_s ;;
  let era := if is_nil (grp m 11) then grp m 9 else grp m 11 in
  Ret (era_year y era).

(** ENMonthNameMiddleEndianParser.hpp:62-160.  The stoi of line 86 sees at most four digits and cannot throw, so the handler of
    line 88 (which returns the bare result) is represented by the [_] branch. *)
Definition middle_endian_extract (_ : env) (_ : gwords) (_ : bytes) (m : mres) (ref : ptime) (idx : Z)
  : outcome result :=
  let res := res_new ref idx (grp m 0) in
  let month := tbl_get (grp m 3) MONTH_CONSTANTS in
  day0 <- (if is_nil (grp m 5) then argToOrdinalValue (grp m 4) else stoi (grp m 5)) ;;
  let day := u16 day0 in
  if (month =? 0) || (12 <? month) || (day =? 0) || (31 <? day) then Ret res else
  match middle_endian_year m with
  | Ret year =>
    y <- (if year =? -1 then refd <- pt_date ref ;; nearest_year refd month day else Ret year) ;;
    let res := on_start (fun p => setYear y (setMonth month (set_mDay day p))) res in
    let res := if is_nil (grp m 2) then res
               else on_start (set_wDay (tbl_get (to_lower (grp m 2)) WEEKDAY_OFFSET)) res in
    res <- (if is_nil (grp m 6) then Ret res else
              (* line 147 passes DATE_TO_NUM_GROUP, which is empty in that branch *)
              ed <- (if is_nil (grp m 7) then argToOrdinalValue (grp m 7) else stoi (grp m 7)) ;;
              let tmp := setMinute 59 (setHour 23 (set_mDay ed (r_start res))) in
              Ret (makeEndDateValid (with_end tmp res))) ;;
    Ret (setTag TMiddleEndian res)
  | _ => Ret res
  end.

Definition middle_endian : parser :=
  {| p_pattern := middle_endian_pattern; p_extract := pure_extract middle_endian_extract |}.
