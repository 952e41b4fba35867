(** * src/parsers/en/ENMonthNameParser.hpp *)
From Verif Require Import Base Regex RegexParse Calendar Components Utils Execute.

(** ENMonthNameParser.hpp:22-30 *)
Definition month_name_pattern : bytes :=
  bs "(^|\D\s+|[^\w\s])(Jan\.?|January|Feb\.?|February|Mar\.?|March|" ++
  bs "Apr\.?|April|May\.?|Jun\\.?|June|Jul\.?|July|Aug\.?|August|Sep\.?|" ++
  bs "Sept\.?|September|Oct\.?|October|Nov\.?|November|Dec\.?|December)\s*" ++
  bs "(?:[,-]?\s*([0-9]{4})(\s*BE|AD|BC)?)?(?=[^\s\w]|\s+[^0-9]|\s+$|$)".

(** Year with an era marker: ENMonthNameParser.hpp:50-62 and ENMonthNameMiddleEndianParser.hpp:99-111.
    The searches for "BE" and "BC" are case-insensitive. *)
Definition era_year (year : Z) (era : bytes) : Z :=
  if is_nil era then (if year <? 100 then year + 2000 else year)
  else if contains (bs "be") (to_lower era) then year - 543
  else if contains (bs "bc") (to_lower era) then - year
  else year.

(** ENMonthNameParser.hpp:70-79 = ENMonthNameMiddleEndianParser.hpp:120-130:
    whichever of the date in the reference year, the next year and the previous year is nearest. *)
Definition nearest_year (refd : date) (month day : Z) : outcome Z :=
  y0 <- d_year refd ;;
  dRef <- mk_date y0 month day ;;
  prevY <- add_years dRef (-1) ;;
  nextY <- add_years dRef 1 ;;
  let d := if Z.abs (nextY - refd) <? Z.abs (dRef - refd) then nextY
           else if Z.abs (prevY - refd) <? Z.abs (dRef - refd) then prevY
           else dRef in
  d_year d.

(** ENMonthNameParser.hpp:32-88.  stoi of four digits cannot throw, so the handler of line 45 is never entered;
    it would return the bare result. *)
Definition month_name_extract (_ : env) (_ : gwords) (_ : bytes) (m : mres) (ref : ptime) (idx : Z)
  : outcome result :=
  text <- substr_from (grp m 0) (List.length (grp m 1)) ;;
  let res := res_new ref idx text in
  let month := tbl_get (grp m 2) MONTH_CONSTANTS in
  let day := 1 in
  let finish (res : result) := Ret (setTag TMonthName res) in
  let implied_year :=
    refd <- pt_date ref ;;
    y <- nearest_year refd month day ;;
    finish (on_start (fun p => implyComponent "year" y (setMonth month (implyComponent "mday" day p))) res) in
  if is_nil (grp m 3) then implied_year
  else match stoi (grp m 3) with
       | Ret y =>
           let year := era_year y (grp m 4) in
           if year =? -1 then implied_year
           else finish (on_start (fun p => setYear year (setMonth month (implyComponent "mday" day p))) res)
       | _ => Ret res
       end.

Definition month_name : parser :=
  {| p_pattern := month_name_pattern; p_extract := pure_extract month_name_extract |}.
