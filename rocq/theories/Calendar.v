(** * Calendar: the parts of Boost.Date_Time the program calls.

    Boost is a dependency, not part of /repo; the functions below transcribe its
    algorithms (boost/date_time/gregorian_calendar.ipp, adjust_functors.hpp,
    date_generators.hpp, time_system_counted.hpp, posix_time/conversion.hpp).
    Special values (not_a_date_time, infinities) never reach them here.

    Bounds: day numbers outside [0, 20000000) and month shifts outside the range
    of [short] would need Boost's unsigned/short wrap-around; they give
    [Unmodelled]. *)
From Verif Require Import Base.

(** A gregorian::date is its day number (Julian day number). *)
Definition date := Z.

(** gregorian_calendar_base::day_number *)
Definition day_number (y m d : Z) : Z :=
  let a := (14 - m) / 12 in
  let y' := y + 4800 - a in
  let m' := m + 12 * a - 3 in
  d + (153 * m' + 2) / 5 + 365 * y' + y' / 4 - y' / 100 + y' / 400 - 32045.

(** gregorian_calendar_base::from_day_number *)
Definition from_day_number (dn : Z) : Z * Z * Z :=
  let a := dn + 32044 in
  let b := (4 * a + 3) / 146097 in
  let c := a - (146097 * b) / 4 in
  let d := (4 * c + 3) / 1461 in
  let e := c - (1461 * d) / 4 in
  let m := (5 * e + 2) / 153 in
  let day := e - (153 * m + 2) / 5 + 1 in
  let month := m + 3 - 12 * (m / 10) in
  let year := 100 * b + d - 4800 + m / 10 in
  (year, month, day).

(** gregorian_calendar_base::is_leap_year, end_of_month_day *)
Definition b_leap (y : Z) : bool :=
  (y mod 4 =? 0) && (negb (y mod 100 =? 0) || (y mod 400 =? 0)).
Definition end_of_month_day (y m : Z) : Z :=
  if m =? 2 then (if b_leap y then 29 else 28)
  else if (m =? 4) || (m =? 6) || (m =? 9) || (m =? 11) then 30 else 31.

(** gregorian_calendar_base::day_of_week (0 = Sunday) *)
Definition dow_of_ymd (y m d : Z) : Z :=
  let a := (14 - m) / 12 in
  let y' := y - a in
  let m' := m + 12 * a - 2 in
  (d + y' + y' / 4 - y' / 100 + y' / 400 + (31 * m') / 12) mod 7.

(** gregorian::date(year, month, day): constrained greg_year/greg_month/greg_day and
    the end-of-month check; all four failures throw classes derived from std::out_of_range. *)
Definition mk_date (y m d : Z) : outcome date :=
  if (1400 <=? y) && (y <=? 9999) && (1 <=? m) && (m <=? 12) && (1 <=? d) && (d <=? end_of_month_day y m)
  then Ret (day_number y m d) else Throw OutOfRange.

(** date::year_month_day(); the greg_year inside throws outside 1400..9999. *)
Definition ymd (dn : date) : outcome (Z * Z * Z) :=
  if (0 <=? dn) && (dn <? 20000000) then
    let '(y, m, d) := from_day_number dn in
    if (1400 <=? y) && (y <=? 9999) then Ret (y, m, d) else Throw OutOfRange
  else Unmodelled.
Definition d_year (dn : date) : outcome Z := '(y, _, _) <- ymd dn ;; Ret y.
Definition d_month (dn : date) : outcome Z := '(_, m, _) <- ymd dn ;; Ret m.
Definition d_day (dn : date) : outcome Z := '(_, _, d) <- ymd dn ;; Ret d.
Definition d_dow (dn : date) : outcome Z := '(y, m, d) <- ymd dn ;; Ret (dow_of_ymd y m d).

(** date +/- days, weeks: unchecked counter arithmetic. *)
Definition add_days (dn : date) (n : Z) : date := dn + n.
Definition add_weeks (dn : date) (n : Z) : date := dn + 7 * n.

(** month_functor::get_offset / get_neg_offset: shift the month, snap to the end of
    the month if the start was an end of month, else clamp. The shift is held in a short. *)
Definition add_months (dn : date) (n : Z) : outcome date :=
  '(y, m, d) <- ymd dn ;;
  if (n <? -32767) || (32767 <? n) then Unmodelled else
  let tot := (m - 1) + n in
  let y' := y + tot / 12 in
  let m' := tot mod 12 + 1 in
  let last := end_of_month_day y' m' in
  let d' := if d =? end_of_month_day y m then last else Z.min d last in
  mk_date y' m' d'.

(** year_functor(f) = month_functor(12 f). *)
Definition add_years (dn : date) (n : Z) : outcome date := add_months dn (12 * n).

(** first_day_of_the_week_before::get_date / ..._after::get_date: strictly before / after,
    one day at a time (at most seven steps). *)
Fixpoint dow_walk (fuel : nat) (step : Z) (dow : Z) (d : date) : outcome date :=
  match fuel with
  | O => OutOfFuel
  | S fuel' => w <- d_dow d ;;
               if w =? dow then Ret d else dow_walk fuel' step dow (d + step)
  end.
Definition first_dow_before (dow : Z) (d : date) : outcome date := dow_walk 7 (-1) dow (d - 1).
Definition first_dow_after (dow : Z) (d : date) : outcome date := dow_walk 7 1 dow (d + 1).

(** nth_kday_of_month::get_date(year) *)
Definition nth_dow_in_month (nth dow month year : Z) : outcome date :=
  d0 <- mk_date year month 1 ;;
  d1 <- dow_walk 7 1 dow d0 ;;
  let d2 := d1 + 7 * (nth - 1) in
  m <- d_month d2 ;;
  if m =? month then Ret d2 else Ret (d2 - 7).

(** last_kday_of_month::get_date(year) *)
Definition last_dow_in_month (dow month year : Z) : outcome date :=
  d0 <- mk_date year month (end_of_month_day year month) ;;
  dow_walk 7 (-1) dow d0.

(** ** posix_time::ptime: microseconds since the start of day number 0. *)
Definition ptime := Z.
Definition SEC : Z := 1000000.
Definition MINUTE : Z := 60 * SEC.
Definition HOUR : Z := 3600 * SEC.
Definition DAY : Z := 86400 * SEC.

Definition pt_daynum (t : ptime) : date := t / DAY.
(** ptime::date() *)
Definition pt_date (t : ptime) : outcome date := _ <- ymd (pt_daynum t) ;; Ret (pt_daynum t).
(** ptime::time_of_day(), then hours()/minutes()/seconds() *)
Definition pt_tod (t : ptime) : outcome Z := if 0 <=? t then Ret (t mod DAY) else Unmodelled.
Definition pt_hours (t : ptime) : outcome Z := u <- pt_tod t ;; Ret (u / HOUR).
Definition pt_minutes (t : ptime) : outcome Z := u <- pt_tod t ;; Ret ((u / MINUTE) mod 60).
Definition pt_seconds (t : ptime) : outcome Z := u <- pt_tod t ;; Ret ((u / SEC) mod 60).

(** posix_time::time_duration(h, m, s): if any field is negative, the absolute values are
    added up and the sum negated. *)
Definition time_duration (h m s : Z) : Z :=
  let v := (3600 * Z.abs h + 60 * Z.abs m + Z.abs s) * SEC in
  if (h <? 0) || (m <? 0) || (s <? 0) then - v else v.

(** posix_time::ptime_from_tm, for tm fields given as year, month (1-based), day, h, m, s;
    tm_year+1900 etc. are cast to unsigned short. *)
Definition ptime_from_tm (y m d h mi s : Z) : outcome ptime :=
  dn <- mk_date (u16 y) (u16 m) (u16 d) ;;
  Ret (dn * DAY + time_duration h mi s).

(** ** posix_time::to_simple_string: "YYYY-Mon-DD HH:MM:SS" (no fraction: ptime_from_tm
    yields whole seconds, and only whole minutes are added). *)
Definition digit_char (z : Z) : ascii := ascii_of_N (Z.to_N (z + 48)).
Definition dec2 (z : Z) : bytes := [digit_char (z / 10 mod 10); digit_char (z mod 10)].
Definition dec4 (z : Z) : bytes :=
  [digit_char (z / 1000 mod 10); digit_char (z / 100 mod 10); digit_char (z / 10 mod 10); digit_char (z mod 10)].
Definition month_short (m : Z) : bytes :=
  nth (Z.to_nat (m - 1))
      (map bs ["Jan"; "Feb"; "Mar"; "Apr"; "May"; "Jun"; "Jul"; "Aug"; "Sep"; "Oct"; "Nov"; "Dec"]%string) [].

Definition to_simple_string (t : ptime) : outcome bytes :=
  '(y, m, d) <- ymd (pt_daynum t) ;;
  u <- pt_tod t ;;
  Ret (dec4 y ++ bs "-" ++ month_short m ++ bs "-" ++ dec2 d ++ bs " " ++
       dec2 (u / HOUR) ++ bs ":" ++ dec2 ((u / MINUTE) mod 60) ++ bs ":" ++ dec2 ((u / SEC) mod 60)).

(** posix_time::to_tm: the fields of a ptime. (year, month, day, weekday, h, m, s) *)
Definition to_tm (t : ptime) : outcome (Z * Z * Z * Z * Z * Z * Z) :=
  '(y, m, d) <- ymd (pt_daynum t) ;;
  u <- pt_tod t ;;
  Ret (y, m, d, dow_of_ymd y m d, u / HOUR, (u / MINUTE) mod 60, (u / SEC) mod 60).
