(** * RelativeSpec: the vocabulary of "this/next/last ...", independent of the parser *)
From Verif Require Import Base Calendar Components Spec View ParserSpec.
Open Scope string_scope.
Open Scope list_scope.
Open Scope Z_scope.

(** the direction of the key word *)
Definition heads (kw : bytes) (s : Z) : Prop := (kw = bs "next" /\ s = 1) \/ ((kw = bs "last" \/ kw = bs "past") /\ s = -1).
(** the amount between the key word and the unit *)
Inductive rel_amount : bytes -> quantity -> Prop :=
| ra_none : rel_amount [] (Whole 1)
| ra_digits w : digits w -> w <> [] -> rel_amount w (Whole (decimal w))
| ra_few : rel_amount (bs "few") (Whole 3)
| ra_half : rel_amount (bs "half") Half
| ra_half_a sp a : blanks sp -> article a -> rel_amount (bs "half" ++ sp ++ a) Half.

(** [c'] is the date [q] units away from [c] in direction [s] (units of at least a day; half a week, month and year are 3 days, 15 days and 6 months) *)
Definition date_away (s : Z) (q : quantity) (u : unit_kind) (c c' : cal) : Prop :=
  match u, q with
  | UDay, Whole k => days_after (s * k) c c'
  | UWeek, Whole k => days_after (s * (7 * k)) c c'
  | UMonth, Whole k => months_after (s * k) c c'
  | UYear, Whole k => months_after (s * (12 * k)) c c'
  | UWeek, Half => days_after (s * 3) c c'
  | UMonth, Half => days_after (s * 15) c c'
  | UYear, Half => months_after (s * 6) c c'
  | _, _ => False
  end.
(** the number of seconds for the other units, and for half a day *)
Definition seconds_in (q : quantity) (u : unit_kind) : option Z :=
  match u, q with
  | UHour, Whole k => Some (3600 * k)
  | UMinute, Whole k => Some (60 * k)
  | USecond, Whole k => Some k
  | UHour, Half => Some 1800
  | UMinute, Half => Some 30
  | USecond, Half => Some 0
  | _, _ => None
  end.
(** what the result for "next/last/past [q] [u]" says.  (Amounts over 2^24 are rounded to a float, so for clock units only some number of seconds is named.) *)
Definition relative_means (t : moment) (s : Z) (q : quantity) (u : unit_kind) (p : pc) : Prop :=
  match u, q with
  | UDay, Half => exists t', real_moment t' /\ seconds_after (s * 43200) t t' /\ date_implied p (mdate t') /\ implied_is Hour (mhour t') p /\ implied_is Min (mmin t') p /\ untouched [Sec] p
  | UDay, _ | UWeek, _ | UMonth, _ | UYear, _ => exists c, date_away s q u (mdate t) c /\ day_result p c
  | _, _ => exists secs t', (forall n, seconds_in q u = Some n -> (match q with Whole k => k <= 2 ^ 24 | Half => True end) -> secs = s * n) /\
      real_moment t' /\ seconds_after secs t t' /\ date_implied p (mdate t') /\ clock_implied p t'
  end.

(** ** "this week", "this month", "this year" *)
(** [a] and [b] are the first and last day of the Sunday-to-Saturday week of [c] *)
Definition week_of (c a b : cal) : Prop :=
  weekday a = 0 /\ weekday b = 6 /\ (exists n, 0 <= n <= 6 /\ days_after n a c /\ days_after (6 - n) c b).
Definition month_of (c a b : cal) : Prop := a = Cal (cy c) (cm c) 1 /\ b = Cal (cy c) (cm c) (month_len (cy c) (cm c)).
Definition year_of (c a b : cal) : Prop := a = Cal (cy c) 1 1 /\ b = Cal (cy c) 12 31.
(** date [a] at the start, [b] at the end: which of year, month and day are certain and which are implied *)
Definition range_implied (r : result) (a b : cal) : Prop := date_implied (r_start r) a /\ date_implied (r_endc r) b.
Definition range_month (r : result) (a b : cal) : Prop :=
  certain Year (cy a) (r_start r) /\ certain Month (cm a) (r_start r) /\ implied_is MDay (cd a) (r_start r) /\
  certain Year (cy b) (r_endc r) /\ certain Month (cm b) (r_endc r) /\ implied_is MDay (cd b) (r_endc r).
Definition range_year (r : result) (a b : cal) : Prop :=
  certain Year (cy a) (r_start r) /\ implied_is Month (cm a) (r_start r) /\ implied_is MDay (cd a) (r_start r) /\
  certain Year (cy b) (r_endc r) /\ implied_is Month (cm b) (r_endc r) /\ implied_is MDay (cd b) (r_endc r).
