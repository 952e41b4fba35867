(** * src/parsers/en/ENDeadlineFormatParser.hpp *)
From Verif Require Import Base Regex RegexParse Calendar Components Utils Execute.

(** ENDeadlineFormatParser.hpp:12-25 *)
Definition deadline_pattern : bytes :=
  bs "(\b)" ++
  bs "(within|in)\s+" ++
  bs "(" ++
  bs "(?:one|two|three|four|five|six|seven|eight|nine|ten|eleven|twelve)|" ++
  bs "[0-9]+|" ++
  bs "an?(?:\s+few)?|" ++
  bs "half(?:\s+an?)?" ++
  bs ")" ++
  bs "\s+(sec(?:ond)?s?|min(?:ute)?s?|h(?:ou)?rs?|days?|w(?:ee)?ks?|months?|y(?:ea)?rs?)" ++
  bs "(\b)".

(** ENDeadlineFormatParser.hpp:35-58: the amount; [None] = stoi threw and was caught (line 54) *)
Definition deadline_amount (g : gwords) (tmp : bytes) : option fnum :=
  match gw_find g tmp with
  | Some v => Some (FInt v)
  | None =>
    if beq tmp (bs "a") || beq tmp (bs "an") then Some (FInt 1)
    else if contains (bs "few") tmp then Some (FInt 3)
    else if contains (bs "half") tmp then Some FHalf
    else match stoi tmp with
         | Ret v => Some (FInt (if v <? 0 then v else fround v))
         | _ => None
         end
  end.

(** ENDeadlineFormatParser.hpp:64-65: regex "day|week|month|year" found in the unit *)
Definition dwmy (u : bytes) : bool :=
  contains (bs "day") u || contains (bs "week") u || contains (bs "month") u || contains (bs "year") u.

(** implyComponent year, month, mday from a date, in that order (lines 108-110, 131-133) *)
Definition imply_ymd (d : date) (res : result) : outcome result :=
  y <- d_year d ;; mo <- d_month d ;; dd <- d_day d ;;
  Ret (on_start (fun p => implyComponent "mday" dd (implyComponent "month" mo (implyComponent "year" y p))) res).

(** ENDeadlineFormatParser.hpp:83-110: week, month and year units, and whole days *)
Definition deadline_date (num : fnum) (u : bytes) (tmpDate : date) : outcome date :=
  if contains (bs "day") u then n <- f2long num ;; Ret (add_days tmpDate n)
  else if contains (bs "week") u then
    if f_whole num then n <- f2long num ;; Ret (add_weeks tmpDate n) else Ret (add_days tmpDate 3)
  else if contains (bs "month") u then
    if f_whole num then n <- f2int num ;; add_months tmpDate n else Ret (add_days tmpDate 15)
  else
    if f_whole num then n <- f2int num ;; add_years tmpDate n else add_months tmpDate 6.

(** ENDeadlineFormatParser.hpp:115-130: hour / minute / second units ([find] must give position 0) *)
Definition deadline_time (num : fnum) (u : bytes) (tmpTime : ptime) : outcome ptime :=
  if starts_with (bs "hour") u then
    if f_whole num then n <- f2int num ;; Ret (tmpTime + n * HOUR) else Ret (tmpTime + 30 * MINUTE)
  else if starts_with (bs "minute") u then
    if f_whole num then n <- f2int num ;; Ret (tmpTime + n * MINUTE) else Ret (tmpTime + 30 * SEC)
  else if starts_with (bs "second") u then
    (* ceil(num) *)
    if f_whole num then n <- f2int num ;; Ret (tmpTime + n * SEC) else Ret (tmpTime + 1 * SEC)
  else Ret tmpTime.

(** ENDeadlineFormatParser.hpp:27-141 *)
Definition deadline_extract (_ : env) (g : gwords) (_ : bytes) (m : mres) (ref : ptime) (idx : Z)
  : outcome result :=
  tmpDate <- pt_date ref ;;
  let res := res_new ref idx (grp m 0) in
  match deadline_amount g (grp m 3) with
  | None => Ret res
  | Some num =>
    let u := grp m 4 in
    if dwmy u then
      if contains (bs "day") u && negb (f_whole num) then
        (* lines 71-80 *)
        let t := ref + 12 * HOUR in
        d <- pt_date t ;;
        res <- imply_ymd d res ;;
        h <- pt_hours t ;; mi <- pt_minutes t ;;
        Ret (on_start (fun p => implyComponent "min" mi (implyComponent "hour" h p)) res)
      else
        d <- deadline_date num u tmpDate ;;
        imply_ymd d res
    else
      t <- deadline_time num u ref ;;
      res <- imply_ymd tmpDate res ;;
      h <- pt_hours t ;; mi <- pt_minutes t ;; s <- pt_seconds t ;;
      Ret (setTag TDeadline
            (on_start (fun p => implyComponent "sec" s (implyComponent "min" mi (implyComponent "hour" h p))) res))
  end.

Definition deadline : parser :=
  {| p_pattern := deadline_pattern; p_extract := pure_extract deadline_extract |}.
