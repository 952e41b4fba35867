(** * src/parsers/en/ENUSHolidaysParser.hpp *)
From Verif Require Import Base Regex RegexParse Calendar Components Utils Execute.

(** ENUSHolidaysParser.hpp:11-22; Christmas and one Veteran spelling contain a double backslash *)
Definition holiday_pattern : bytes :=
  bs "(\b)" ++
  bs "(Independence|President\'s|New\s*Year\'s(?:\s*eve)?|" ++
  bs "Columbus|MLK|Martin\s*Luther\s*King\s*(?:Junior|Jr|Jnr)|" ++
  bs "Thanksgiving|Memorial|Labor|Veteran(?:s|\\'s)|Christmas\\s*(?:eve)?|" ++
  bs "black\s*Friday)\s+" ++
  bs "(?:day)?" ++
  bs "(\b)".

(** result.startDate.setYear/Month/mDay *)
Definition set_ymd (y m d : Z) (p : pc) : pc := set_mDay d (setMonth m (setYear y p)).
(** the four setters used with a computed [day] (e.g. lines 68-71); [plus] is 1 for Black Friday (lines 112-113) *)
Definition set_from_date (d : date) (plus : Z) (res : result) : outcome result :=
  y <- d_year d ;; mo <- d_month d ;; dd <- d_day d ;; w <- d_dow d ;;
  Ret (on_start (fun p => set_wDay (w + plus) (set_ymd y mo (dd + plus) p)) res).

(** ENUSHolidaysParser.hpp:30-134: gregorian::Monday = 1, Thursday = 4; months by number *)
Definition holiday_date (text : bytes) (ref : ptime) (res : result) : outcome result :=
  rd <- pt_date ref ;;
  ry <- d_year rd ;;
  if contains (bs "independence") text then Ret (on_start (set_ymd ry 7 4) res)
  else if contains (bs "new year") text then
    Ret (on_start (if contains (bs "eve") text then (fun p => set_mDay 31 (setMonth 12 (set_ymd ry 1 1 p)))
                   else set_ymd ry 1 1) res)
  else if contains (bs "veteran") text then Ret (on_start (set_ymd ry 11 11) res)
  else if contains (bs "christmas") text then
    Ret (on_start (if contains (bs "eve") text then (fun p => set_mDay 24 (set_ymd ry 12 25 p))
                   else set_ymd ry 12 25) res)
  else if contains (bs "mlk") text || contains (to_lower (bs "Martin Luther King")) text then
    d <- nth_dow_in_month 3 1 1 ry ;; set_from_date d 0 res
  else if contains (bs "labor") text then d <- nth_dow_in_month 1 1 9 ry ;; set_from_date d 0 res
  else if contains (bs "president") text then d <- nth_dow_in_month 3 1 2 ry ;; set_from_date d 0 res
  else if contains (bs "thanksgiving") text then d <- nth_dow_in_month 4 4 11 ry ;; set_from_date d 0 res
  else if contains (bs "black") text then d <- nth_dow_in_month 4 4 11 ry ;; set_from_date (d + 1) 1 res
  else if contains (bs "memorial") text then d <- last_dow_in_month 1 5 ry ;; set_from_date d 0 res
  else if contains (bs "columbus") text then d <- nth_dow_in_month 2 1 10 ry ;; set_from_date d 0 res
  else Ret res.

(** ENUSHolidaysParser.hpp:24-141 *)
Definition holiday_extract (_ : env) (_ : gwords) (_ : bytes) (m : mres) (ref : ptime) (idx : Z)
  : outcome result :=
  let text := grp m 0 in
  res <- holiday_date text ref (res_new ref idx text) ;;
  Ret (setTag THolidays (on_start (fun p => setMinute 0 (setHour 0 p)) res)).

Definition holiday : parser :=
  {| p_pattern := holiday_pattern; p_extract := pure_extract holiday_extract |}.
