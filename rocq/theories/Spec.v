(** * Spec: the small vocabulary in which the properties are stated.

    Nothing in this file mentions the model.  It defines the Gregorian calendar from
    scratch (leap years, month lengths, "the next day"), a day count, weekdays,
    and how a date and time are written. *)
From Coq Require Import List ZArith Bool Ascii String.
Import ListNotations.
Open Scope Z_scope.

(** ** The Gregorian calendar *)
Definition is_leap (y : Z) : bool :=
  if y mod 400 =? 0 then true
  else if y mod 100 =? 0 then false
  else y mod 4 =? 0.

Definition month_lengths (y : Z) : list Z :=
  [31; if is_leap y then 29 else 28; 31; 30; 31; 30; 31; 31; 30; 31; 30; 31].

Definition month_len (y m : Z) : Z := nth (Z.to_nat (m - 1)) (month_lengths y) 0.

(** A calendar date: year, month (1..12), day of month. *)
Record cal := Cal { cy : Z; cm : Z; cd : Z }.

Definition valid (c : cal) : Prop :=
  1 <= cm c <= 12 /\ 1 <= cd c <= month_len (cy c) (cm c).

(** The range Boost.Date_Time supports. *)
Definition in_range_year (c : cal) : Prop := 1400 <= cy c <= 9999.

Definition real_date (c : cal) : Prop := valid c /\ in_range_year c.

(** "Tomorrow", as one reads it off a wall calendar. *)
Definition next_day (c : cal) : cal :=
  if cd c <? month_len (cy c) (cm c) then Cal (cy c) (cm c) (cd c + 1)
  else if cm c <? 12 then Cal (cy c) (cm c + 1) 1
  else Cal (cy c + 1) 1 1.

(** Day count, with 1 January of year 1 being day 1.  [rd_next_day] in CalendarFacts.v shows that it is the
    number of [next_day] steps. *)
Definition days_before_year (y : Z) : Z :=
  365 * (y - 1) + (y - 1) / 4 - (y - 1) / 100 + (y - 1) / 400.
Definition days_before_month (y m : Z) : Z :=
  fold_right Z.add 0 (firstn (Z.to_nat (m - 1)) (month_lengths y)).
Definition rd (c : cal) : Z := days_before_year (cy c) + days_before_month (cy c) (cm c) + cd c.

(** 0 = Sunday ... 6 = Saturday.  1 January of year 1 was a Monday. *)
Definition weekday (c : cal) : Z := rd c mod 7.

(** [c'] is [n] days after [c] (before, if [n] is negative). *)
Definition days_after (n : Z) (c c' : cal) : Prop := valid c' /\ rd c' = rd c + n.

(** [c'] is [n] calendar months after [c]: same day of the month if the new month has it, the last day
    otherwise; and the last day of a month stays the last day of the month. *)
Definition months_after (n : Z) (c c' : cal) : Prop :=
  12 * cy c' + (cm c' - 1) = 12 * cy c + (cm c - 1) + n /\
  1 <= cm c' <= 12 /\
  cd c' = (if cd c =? month_len (cy c) (cm c) then month_len (cy c') (cm c')
           else Z.min (cd c) (month_len (cy c') (cm c'))).

(** The [n]-th weekday [w] of month [m] of year [y] is day [d]: it has that weekday, and exactly
    [n]-1 earlier days of the month do. *)
Definition nth_weekday (n w y m d : Z) : Prop :=
  valid (Cal y m d) /\ weekday (Cal y m d) = w /\ 7 * (n - 1) < d <= 7 * n.

(** The last weekday [w] of the month: it has that weekday and a week later is another month. *)
Definition last_weekday (w y m d : Z) : Prop :=
  valid (Cal y m d) /\ weekday (Cal y m d) = w /\ month_len y m < d + 7.

(** ** Moments *)
Record moment := Moment { mdate : cal; mhour : Z; mmin : Z; msec : Z }.

Definition real_moment (t : moment) : Prop :=
  real_date (mdate t) /\ 0 <= mhour t < 24 /\ 0 <= mmin t < 60 /\ 0 <= msec t < 60.

(** Seconds since the start of day 0 of the day count. *)
Definition sec_count (t : moment) : Z :=
  86400 * rd (mdate t) + 3600 * mhour t + 60 * mmin t + msec t.

(** [t'] is [n] seconds after [t]. *)
Definition seconds_after (n : Z) (t t' : moment) : Prop :=
  valid (mdate t') /\ 0 <= mhour t' < 24 /\ 0 <= mmin t' < 60 /\ 0 <= msec t' < 60 /\
  sec_count t' = sec_count t + n.

(** ** How a moment is written: YYYY-Mon-DD HH:MM:SS *)
Definition digit (z : Z) : string :=
  nth (Z.to_nat z) ["0"; "1"; "2"; "3"; "4"; "5"; "6"; "7"; "8"; "9"]%string ""%string.
Definition two_digits (z : Z) : string := digit (z / 10) ++ digit (z mod 10).
Definition four_digits (z : Z) : string := two_digits (z / 100) ++ two_digits (z mod 100).
Definition month_abbrev (m : Z) : string :=
  nth (Z.to_nat (m - 1))
      ["Jan"; "Feb"; "Mar"; "Apr"; "May"; "Jun"; "Jul"; "Aug"; "Sep"; "Oct"; "Nov"; "Dec"]%string ""%string.
Definition written (t : moment) : string :=
  (four_digits (cy (mdate t)) ++ "-" ++ month_abbrev (cm (mdate t)) ++ "-" ++ two_digits (cd (mdate t)) ++ " "
   ++ two_digits (mhour t) ++ ":" ++ two_digits (mmin t) ++ ":" ++ two_digits (msec t))%string.
