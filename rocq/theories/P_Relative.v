(** * src/parsers/en/ENRelativeDateFormatParser.hpp (not registered in time.cpp's main) *)
From Verif Require Import Base Regex RegexParse Calendar Components Utils Execute P_Deadline.

(** ENRelativeDateFormatParser.hpp:17-25 *)
Definition relative_pattern : bytes :=
  bs "(\b)(this|next|last|past)\s*( (?:one|two|three|four|five|six|seven|" ++
  bs "eight|nine|ten|eleven|twelve)|[0-9]+|few|half(?:\s*an?)?)?\s*(seconds?|" ++
  bs "min(?:ute)?s?|hour(?:s)?|day(?:s)?|week(?:s)?|month(?:s)?|year(?:s)?)(?=\s*)" ++
  bs "(\b)".

(** ENRelativeDateFormatParser.hpp:35-58; [None] = stof threw and was caught *)
Definition relative_amount (g : gwords) (label : bytes) : option fnum :=
  match gw_find g label with
  | Some v => Some (FInt v)
  | None =>
    if is_nil label then Some (FInt 1)
    else if contains (bs "few") label then Some (FInt 3)
    else if contains (bs "half") label then Some FHalf
    else match stof label with Ret f => Some f | _ => None end
  end.

(** ENRelativeDateFormatParser.hpp:66-113 "this ..." (dwmy of line 33 is icase; the text is lower-case already) *)
Definition relative_this (ref : ptime) (u : bytes) (res : result) : outcome result :=
  let res := setTag TRelative res in
  if dwmy u then
    if contains (bs "week") u then
      d <- pt_date ref ;;
      w <- d_dow d ;;
      let first := d - w in
      let last := d + u16 (6 - w) in
      fd <- d_day first ;; fm <- d_month first ;; fy <- d_year first ;;
      ld <- d_day last ;; lm <- d_month last ;; ly <- d_year last ;;
      Ret (makeEndDateValid
            (on_end (fun p => implyComponent "year" ly (implyComponent "month" lm (implyComponent "mday" ld p)))
            (on_start (fun p => implyComponent "year" fy (implyComponent "month" fm (implyComponent "mday" fd p))) res)))
    else if contains (bs "month") u then
      d <- pt_date ref ;;
      y <- d_year d ;; mo <- d_month d ;;
      Ret (makeEndDateValid
            (on_end (fun p => setYear y (setMonth mo (implyComponent "mday" (end_of_month_day y mo) p)))
            (on_start (fun p => setYear y (setMonth mo (implyComponent "mday" 1 p))) res)))
    else if contains (bs "year") u then
      d <- pt_date ref ;;
      y <- d_year d ;;
      Ret (makeEndDateValid
            (on_end (fun p => setYear y (implyComponent "month" 12 (implyComponent "mday" 31 p)))
            (on_start (fun p => setYear y (implyComponent "month" 1 (implyComponent "mday" 1 p))) res)))
    else Ret res
  else Ret res.

(** ENRelativeDateFormatParser.hpp:126-208: date units; [sgn] is 1 for "next", -1 otherwise *)
Definition relative_date (num : fnum) (sgn : Z) (u : bytes) (d : date) : outcome date :=
  if contains (bs "day") u then n <- f2int num ;; Ret (add_days d (sgn * n))
  else if contains (bs "week") u then
    if f_whole num then n <- f2int num ;; Ret (add_weeks d (sgn * n)) else Ret (add_days d (sgn * 3))
  else if contains (bs "month") u then
    if f_whole num then n <- f2int num ;; add_months d (sgn * n) else Ret (add_days d (sgn * 15))
  else
    if f_whole num then n <- f2int num ;; add_years d (sgn * n) else add_months d (sgn * 6).

(** ENRelativeDateFormatParser.hpp:218-260: time units.  Note "minute": the spellings min/mins fall through. *)
Definition relative_time (num : fnum) (sgn : Z) (u : bytes) (t : ptime) : outcome ptime :=
  if contains (bs "hour") u then
    if f_whole num then n <- f2int num ;; Ret (t + sgn * (n * HOUR)) else Ret (t + sgn * (30 * MINUTE))
  else if contains (bs "minute") u then
    if f_whole num then n <- f2int num ;; Ret (t + sgn * (n * MINUTE)) else Ret (t + sgn * (30 * SEC))
  else if contains (bs "second") u then
    n <- f2int num ;; Ret (t + sgn * (n * SEC))
  else Ret t.

(** ENRelativeDateFormatParser.hpp:27-271 *)
Definition relative_extract (_ : env) (g : gwords) (_ : bytes) (m : mres) (ref : ptime) (idx : Z)
  : outcome result :=
  tmpDate <- pt_date ref ;;
  let res := res_new ref idx (grp m 0) in
  match relative_amount g (grp m 3) with
  | None => Ret res
  | Some num =>
    let u := grp m 4 in
    if beq (grp m 2) (bs "this") then
      if is_nil (grp m 3) then relative_this ref u res else Ret res
    else
      let sgn := if beq (grp m 2) (bs "next") then 1 else -1 in
      if dwmy u then
        let res := setTag TRelative res in
        if contains (bs "day") u && negb (f_whole num) then
          let t := ref + sgn * (12 * HOUR) in
          d <- pt_date t ;;
          res <- imply_ymd d res ;;
          h <- pt_hours t ;; mi <- pt_minutes t ;;
          Ret (on_start (fun p => implyComponent "min" mi (implyComponent "hour" h p)) res)
        else
          d <- relative_date num sgn u tmpDate ;;
          imply_ymd d res
      else
        t <- relative_time num sgn u ref ;;
        d <- pt_date t ;;
        res <- imply_ymd d res ;;
        h <- pt_hours t ;; mi <- pt_minutes t ;; s <- pt_seconds t ;;
        Ret (setTag TRelative
              (on_start (fun p => implyComponent "sec" s (implyComponent "min" mi (implyComponent "hour" h p))) res))
  end.

Definition relative : parser :=
  {| p_pattern := relative_pattern; p_extract := pure_extract relative_extract |}.
