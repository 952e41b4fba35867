(** * src/parsers/en/ENDayOfTheWeekParser.hpp *)
From Verif Require Import Base Regex RegexParse Calendar Components Utils Execute.

(** ENDayOfTheWeekParser.hpp:22-33, the concatenated raw strings verbatim *)
Definition day_of_week_pattern : bytes :=
  bs "(\b)" ++
  bs "(earl(?:ier|y)|late)?" ++
  bs "(?:\s*(this|last|next)\s*)?)" ++
  bs "(Sun(?:day)?|Mon(?:day)?|Tue(?:s(?:day)?)?|Wed(?:nesday)?|Thu(?:r(?:s(?:day)?)?)?|Fri(?:day)?|Sat(?:urday)?)" ++
  bs "(?:\s*(this|last|next)\s*)?(?:(week)\s*)?" ++
  bs "(\b".

(** ENDayOfTheWeekParser.hpp:43-99: the resolved date and whether it is "fixed".
    The comparisons use day_of_week().as_number(), 0 = Sunday. *)
Definition dow_resolve (start : date) (offset : Z) (modifier : bytes) : outcome (date * bool) :=
  let shifted (tmp : date) :=
    w <- d_dow start ;;
    if offset <? w then d <- first_dow_before offset tmp ;; Ret (d, true)
    else if w <? offset then d <- first_dow_after offset tmp ;; Ret (d, true)
    else Ret (tmp, true) in
  if beq modifier (bs "last") || beq modifier (bs "past") then shifted (start - 7)
  else if beq modifier (bs "next") then shifted (start + 7)
  else if beq modifier (bs "this") || is_nil modifier then
    w <- d_dow start ;;
    if offset =? w then Ret (start, false)
    else if offset <? w then d <- first_dow_before offset start ;; Ret (d, false)
    else d <- first_dow_after offset start ;; Ret (d, false)
  else
    w <- d_dow start ;;
    let o := tbl_get modifier WEEKDAY_OFFSET in
    if w - o =? 0 then Ret (start, false)
    else if w - o <? 0 then d <- first_dow_after o start ;; Ret (d, false)
    else d <- first_dow_before o start ;; Ret (d, false).

(** ENDayOfTheWeekParser.hpp:35-125 updateParsedComponent (line 101's is_special() never holds) *)
Definition updateParsedComponent (res : result) (ref : ptime) (offset : Z) (modifier timing : bytes)
  : outcome result :=
  start <- pt_date ref ;;
  '(d, fixed) <- dow_resolve start offset modifier ;;
  dd <- d_day d ;; mo <- d_month d ;; y <- d_year d ;;
  let res := if fixed : bool
             then on_start (fun p => setYear y (setMonth mo (set_mDay dd p))) res
             else on_start (fun p => implyComponent "year" y (implyComponent "month" mo
                                     (implyComponent "mday" dd p))) res in
  let res := if beq timing (bs "earlier") || beq timing (bs "early")
             then on_start (fun p => implyComponent "min" 1 (implyComponent "hour" 6 p)) res
             else if beq timing (bs "late")
             then on_start (fun p => implyComponent "min" 1 (implyComponent "hour" 20 p)) res
             else res in
  Ret (setTag TDayOfWeek res).

(** ENDayOfTheWeekParser.hpp:127-153 *)
Definition day_of_week_extract (_ : env) (_ : gwords) (_ : bytes) (m : mres) (ref : ptime) (idx : Z)
  : outcome result :=
  let res := res_new ref idx (grp m 0) in
  let offset := tbl_get (grp m 4) WEEKDAY_OFFSET in
  if 6 <? offset then Ret res else
  let norm := if is_nil (grp m 3) then grp m 5 else if is_nil (grp m 5) then grp m 3 else [] in
  updateParsedComponent res ref offset norm (grp m 2).

Definition day_of_week : parser :=
  {| p_pattern := day_of_week_pattern; p_extract := pure_extract day_of_week_extract |}.
