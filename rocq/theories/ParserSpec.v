(** * ParserSpec: what the phrases mean, independently of the parsers.
    The vocabulary (in addition to Spec.v and View.v) in which the theorems about the individual parsers are stated. *)
From Verif Require Import Base Calendar Components Spec View.
Open Scope string_scope.
Open Scope list_scope.
Open Scope Z_scope.

(** ** Numbers *)
Definition digits (w : bytes) : Prop := Forall (fun c => is_digit c = true) w.
(** the number a string of decimal digits denotes *)
Definition decimal (w : bytes) : Z := fold_left (fun a c => 10 * a + (Z.of_N (N_of_ascii c) - 48)) w 0.
(** the number words *)
Definition number_words : list (string * Z) :=
  [("one", 1); ("two", 2); ("three", 3); ("four", 4); ("five", 5); ("six", 6); ("seven", 7); ("eight", 8); ("nine", 9);
   ("ten", 10); ("eleven", 11); ("twelve", 12)].
Inductive quantity := Whole (k : Z) | Half.
Definition article (a : bytes) : Prop := a = bs "a" \/ a = bs "an".
(** [w] spells the quantity *)
Inductive spells : bytes -> quantity -> Prop :=
| sp_word w k : In (w, k) number_words -> spells (bs w) (Whole k)
| sp_digits w : digits w -> w <> [] -> spells w (Whole (decimal w))
| sp_article a : article a -> spells a (Whole 1)
| sp_few a sp : article a -> blanks sp -> sp <> [] -> spells (a ++ sp ++ bs "few") (Whole 3)
| sp_half : spells (bs "half") Half
| sp_half_a a sp : article a -> blanks sp -> sp <> [] -> spells (bs "half" ++ sp ++ a) Half.

(** ** Units of time (the deadline parser) *)
Inductive unit_kind := UDay | UWeek | UMonth | UYear | UHour | UMinute | USecond.
Definition full_units : list (string * unit_kind) :=
  [("day", UDay); ("days", UDay); ("week", UWeek); ("weeks", UWeek); ("month", UMonth); ("months", UMonth); ("year", UYear); ("years", UYear);
   ("hour", UHour); ("hours", UHour); ("minute", UMinute); ("minutes", UMinute); ("second", USecond); ("seconds", USecond)].
Definition abbreviations : list string := ["sec"; "secs"; "min"; "mins"; "hr"; "hrs"; "wk"; "wks"; "yr"; "yrs"].
Definition all_units : list string := map fst full_units ++ abbreviations.

Definition clock_implied (p : pc) (t : moment) : Prop := implied_is Hour (mhour t) p /\ implied_is Min (mmin t) p /\ implied_is Sec (msec t) p.
(** date [c], clock untouched *)
Definition day_result (p : pc) (c : cal) : Prop := real_date c /\ date_implied p c /\ untouched [Hour; Min; Sec] p.

(** what the result says for a full unit name, [k] the number of units after float conversion ([k'] = [k] up to 2^24) *)
Definition deadline_means (t : moment) (q : quantity) (u : unit_kind) (p : pc) : Prop :=
  match u, q with
  | UDay, Whole k => exists c, days_after k (mdate t) c /\ day_result p c
  | UDay, Half => exists t', real_moment t' /\ seconds_after 43200 t t' /\ date_implied p (mdate t') /\ implied_is Hour (mhour t') p /\ implied_is Min (mmin t') p /\ untouched [Sec] p
  | UWeek, Whole k => exists c, days_after (7 * k) (mdate t) c /\ day_result p c
  | UWeek, Half => exists c, days_after 3 (mdate t) c /\ day_result p c
  | UMonth, Whole k => exists c, months_after k (mdate t) c /\ day_result p c
  | UMonth, Half => exists c, days_after 15 (mdate t) c /\ day_result p c
  | UYear, Whole k => exists c, months_after (12 * k) (mdate t) c /\ day_result p c
  | UYear, Half => exists c, months_after 6 (mdate t) c /\ day_result p c
  | _, _ =>
      let size := match u with UHour => 3600 | UMinute => 60 | _ => 1 end in
      exists secs, (match q with Whole k => k <= 2 ^ 24 -> secs = size * k | Half => secs = match u with UHour => 1800 | UMinute => 30 | _ => 1 end end) /\
        0 <= secs /\ date_implied p (mdate t) /\ forall t', seconds_after secs t t' -> clock_implied p t'
  end.


(** the date "in N units" names for the units day, week, month and year (half a day is not a whole number of days) *)
Definition deadline_target (t : moment) (q : quantity) (u : unit_kind) (c : cal) : Prop :=
  match u, q with
  | UDay, Whole k => days_after k (mdate t) c
  | UWeek, Whole k => days_after (7 * k) (mdate t) c
  | UMonth, Whole k => months_after k (mdate t) c /\ k <= 32767
  | UYear, Whole k => months_after (12 * k) (mdate t) c /\ 12 * k <= 32767
  | UWeek, Half => days_after 3 (mdate t) c
  | UMonth, Half => days_after 15 (mdate t) c
  | UYear, Half => months_after 6 (mdate t) c
  | _, _ => False
  end.
(** the number of seconds "in N hours/minutes/seconds" (and half a day) stands for *)
Definition deadline_seconds (q : quantity) (u : unit_kind) : option Z :=
  match u, q with
  | UHour, Whole k => Some (3600 * k)
  | UMinute, Whole k => Some (60 * k)
  | USecond, Whole k => Some k
  | UHour, Half => Some 1800
  | UMinute, Half => Some 30
  | USecond, Half => Some 1
  | UDay, Half => Some 43200
  | _, _ => None
  end.

(** ** ISO texts *)
(** the optional zone: nothing, z, or a sign, two digits of hours and possibly two digits of minutes *)
Inductive zone := NoZone | Zulu | Offset (minus : bool) (hh : bytes) (colon : bool) (mm : bytes).
Definition zone_text (z : zone) : bytes :=
  match z with
  | NoZone => []
  | Zulu => bs "z"
  | Offset minus hh colon mm => bs (if minus then "-" else "+") ++ hh ++ (if colon then bs ":" else []) ++ mm
  end.
Definition zone_ok (z : zone) : Prop :=
  match z with
  | NoZone | Zulu => True
  | Offset _ hh colon mm => digits hh /\ List.length hh = 2%nat /\ digits mm /\ (List.length mm = 2%nat \/ mm = [] /\ colon = false)
  end.
(** the offset in minutes, with its sign *)
Definition zone_minutes (z : zone) : Z :=
  match z with
  | NoZone | Zulu => 0
  | Offset minus hh _ mm => (if minus then -1 else 1) * (60 * decimal hh + decimal mm)
  end.
(** a time of day with optional seconds and fraction *)
Record iso_clock := IsoClock { ic_h : bytes; ic_m : bytes; ic_s : option (bytes * bytes); ic_z : zone }.
Definition clock_text (k : iso_clock) : bytes :=
  bs "t" ++ ic_h k ++ bs ":" ++ ic_m k ++
  match ic_s k with None => [] | Some (ss, fr) => bs ":" ++ ss ++ match fr with [] => [] | _ => bs "." ++ fr end end ++
  zone_text (ic_z k).
Definition two (w : bytes) : Prop := digits w /\ List.length w = 2%nat.
Definition clock_ok (k : iso_clock) : Prop :=
  two (ic_h k) /\ two (ic_m k) /\ match ic_s k with None => True | Some (ss, fr) => two ss /\ digits fr /\ (List.length fr <= 4)%nat end /\ zone_ok (ic_z k).
(** year, month and day in digits *)
Definition ymd_text (yy mm dd : bytes) : bytes := yy ++ bs "-" ++ mm ++ bs "-" ++ dd.

(** ** Weekdays *)
Definition weekday_words : list (string * Z) :=
  [("sunday", 0); ("sun", 0); ("monday", 1); ("mon", 1); ("tuesday", 2); ("tues", 2); ("tue", 2); ("wednesday", 3); ("wed", 3);
   ("thursday", 4); ("thurs", 4); ("thur", 4); ("thu", 4); ("friday", 5); ("fri", 5); ("saturday", 6); ("sat", 6)]%string.
(** the Sunday-to-Saturday week of [c'] is [k] weeks after that of [c] *)
Definition weeks_later (k : Z) (c c' : cal) : Prop := valid c' /\ rd c' - weekday c' = rd c - weekday c + 7 * k.

(** ** US holidays *)
Inductive holiday_rule := OnDate (m d : Z) | NthDay (n w m : Z) | LastDay (w m : Z).
Definition king_rule : holiday_rule := NthDay 3 1 1.
Definition holiday_table : list (string * holiday_rule) :=
  [("independence", OnDate 7 4); ("veterans", OnDate 11 11); ("mlk", king_rule); ("president's", NthDay 3 1 2);
   ("memorial", LastDay 1 5); ("labor", NthDay 1 1 9); ("columbus", NthDay 2 1 10); ("thanksgiving", NthDay 4 4 11)]%string.
(** the names; [gap] is what may stand between the words of "new year's" and "martin luther king" *)
Definition holiday_name (gap : bytes -> Prop) (n : bytes) (r : holiday_rule) : Prop :=
  (exists w, In (w, r) holiday_table /\ n = bs w) \/
  (r = OnDate 1 1 /\ exists s, n = bs "new" ++ s ++ bs "year's" /\ gap s) \/
  (r = OnDate 12 31 /\ exists s s', n = bs "new" ++ s ++ bs "year's" ++ s' ++ bs "eve" /\ gap s /\ blanks s') \/
  (r = king_rule /\ exists s s' s'' j, n = bs "martin" ++ s ++ bs "luther" ++ s' ++ bs "king" ++ s'' ++ bs j /\ gap s /\ gap s' /\ blanks s'' /\ In j ["junior"; "jr"; "jnr"]%string).
Definition one_space (s : bytes) : Prop := s = bs " ".
(** the holiday of year [y] is on [c] *)
Definition falls_on (r : holiday_rule) (y : Z) (c : cal) : Prop :=
  cy c = y /\
  match r with
  | OnDate m d => cm c = m /\ cd c = d
  | NthDay n w m => cm c = m /\ nth_weekday n w y m (cd c)
  | LastDay w m => cm c = m /\ last_weekday w y m (cd c)
  end.
(** the weekday is set for the holidays defined by a weekday *)
Definition holiday_weekday (r : holiday_rule) (c : cal) (p : pc) : Prop :=
  match r with OnDate _ _ => unset WDay p | _ => certain WDay (weekday c) p end.
