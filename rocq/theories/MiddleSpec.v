(** * MiddleSpec: "March 5", "Monday, May 5 to 7 2012" - how they are written and what they mean, independent of the parser *)
From Verif Require Import Base Calendar Components Spec View ParserSpec PhraseSpec ClockSpec.
Open Scope string_scope.
Open Scope list_scope.
Open Scope Z_scope.

(** the day of the month: one or two digits, possibly with st, nd, rd or th, or an ordinal word *)
Definition ordinal_suffix (s : bytes) : Prop := s = [] \/ s = bs "st" \/ s = bs "nd" \/ s = bs "rd" \/ s = bs "th".
Inductive mday_word : bytes -> Z -> Prop :=
| dw_digits dd s : digits dd -> (1 <= List.length dd <= 2)%nat -> ordinal_suffix s -> mday_word (dd ++ s) (decimal dd)
| dw_ordinal w n : says_ordinal w n -> mday_word w n.
(** names of the days of the week, Sunday = 0 *)
Definition weekday_words : list (string * Z) :=
  [("sunday", 0); ("sun", 0); ("monday", 1); ("mon", 1); ("tuesday", 2); ("tues", 2); ("tue", 2); ("wednesday", 3); ("wed", 3);
   ("thursday", 4); ("thurs", 4); ("thur", 4); ("thu", 4); ("friday", 5); ("fri", 5); ("saturday", 6); ("sat", 6)]%string.
Definition weekday_word (w : bytes) (k : Z) : Prop := exists s, In (s, k) weekday_words /\ w = bs s.
(** a written year: four digits with or without an era, or up to four digits with AD or BC *)
Inductive written_year : bytes -> bytes -> era -> Prop :=
| wy_four yy sp e : digits yy -> List.length yy = 4%nat -> blanks sp -> written_year (yy ++ sp ++ era_word e) yy e
| wy_era yy sp e : digits yy -> (1 <= List.length yy <= 4)%nat -> blanks sp -> e = AD \/ e = BC -> written_year (yy ++ sp ++ era_word e) yy e.
(** what separates the month, the day and the year *)
Definition date_separator (s : bytes) : Prop :=
  s = bs "-" \/ s = bs "/" \/ exists a c b, s = a ++ c ++ b /\ blanks a /\ (c = [] \/ c = bs ",") /\ blanks b.
(** the written parts of such a date *)
Record month_day := MonthDay { md_weekday : option Z; md_month : Z; md_day : Z; md_to : option (bytes * bool); md_year : option (bytes * era) }.
Definition weekday_part (w : bytes) (o : option Z) : Prop :=
  match o with
  | None => w = []
  | Some k => exists on d sp c sp', w = on ++ d ++ sp ++ c ++ sp' /\ (on = [] \/ exists s, on = bs "on" ++ s /\ blanks s) /\ weekday_word d k /\ blanks sp /\ (c = [] \/ c = bs ",") /\ blanks sp'
  end.
(** the last day of a range: the digits, or (with [false]) the ordinal word *)
Definition to_part (w : bytes) (o : option (bytes * bool)) : Prop :=
  match o with
  | None => w = []
  | Some (d, isnum) => exists to sp x sp', w = to ++ sp ++ x ++ sp' /\ (to = bs "to" \/ to = bs "-") /\ blanks sp /\ blanks sp' /\
      (if isnum then digits d /\ (1 <= List.length d <= 2)%nat /\ exists s, ordinal_suffix s /\ x = d ++ s else x = d /\ d <> [] /\ Forall (fun c => is_digit c = false) d)
  end.
Definition year_part (w : bytes) (o : option (bytes * era)) : Prop :=
  match o with
  | None => w = []
  | Some (yy, e) => exists sep y sp, w = sep ++ y ++ sp /\ date_separator sep /\ written_year y yy e /\ blanks sp /\ sp <> []
  end.
Definition month_day_form (tx : bytes) (x : month_day) : Prop :=
  exists l mw sep dw sp rg yr, tx = l ++ mw ++ sep ++ dw ++ sp ++ rg ++ yr /\ weekday_part l (md_weekday x) /\ month_word mw (md_month x) /\ date_separator sep /\
    mday_word dw (md_day x) /\ blanks sp /\ sp <> [] /\ to_part rg (md_to x) /\ year_part yr (md_year x).

(** the year: the written one; without one, the reference year or a neighbour, the nearest one (28 and 29 February excepted) *)
Definition nearby_year (t : moment) (m d y : Z) : Prop :=
  cy (mdate t) - 1 <= y <= cy (mdate t) + 1 /\ (m <> 2 \/ d <= 27 -> nearest_year_to (mdate t) m d y).
Definition year_meant (t : moment) (x : month_day) (y : Z) : Prop :=
  match md_year x with
  | None => nearby_year t (md_month x) (md_day x) y
  | Some (yy, e) => ((e = NoEra -> 100 <= decimal yy) -> year_in_era e (decimal yy) <> -1 -> y = year_in_era e (decimal yy)) /\
                    (e = NoEra -> decimal yy < 100 -> y = decimal yy + 2000) /\
                    (year_in_era e (decimal yy) = -1 -> nearby_year t (md_month x) (md_day x) y)
  end.
(** the date fields of one side; the clock and the zone are left alone *)
Definition date_said (x : month_day) (y d : Z) (p : pc) : Prop :=
  certain Month (md_month x) p /\ certain MDay d p /\ certain Year y p /\
  match md_weekday x with Some k => certain WDay k p | None => unset WDay p end.
(** the whole result *)
Definition month_day_said (t : moment) (x : month_day) (r : result) : Prop :=
  exists y, year_meant t x y /\ date_said x y (md_day x) (r_start r) /\ untouched [Hour; Min; Sec; TzOffset] (r_start r) /\
  match md_to x with
  | None => has_end r = false
  | Some (d, isnum) => has_end r = true /\ date_said x y (if isnum then decimal d else 0) (r_endc r) /\ certain Hour 23 (r_endc r) /\ certain Min 59 (r_endc r) /\ untouched [Sec; TzOffset] (r_endc r)
  end.

(** ** Plainly written dates, those the parser is certain to find when a word follows *)
Definition plain_weekday (w : bytes) (o : option Z) : Prop :=
  match o with
  | None => w = []
  | Some k => exists on d c sp, w = on ++ d ++ c ++ sp /\ (on = [] \/ on = bs "on ") /\ weekday_word d k /\ (c = [] \/ c = bs ",") /\ spaced sp /\ c ++ sp <> []
  end.
Definition plain_sep (s : bytes) : Prop := s = bs "-" \/ s = bs "/" \/ exists c sp, s = c ++ sp /\ (c = [] \/ c = bs ",") /\ spaced sp.
(** the day: digits with an optional suffix after any separator, or an ordinal word after a separator that is not empty *)
Inductive plain_day : bytes -> bytes -> Z -> Prop :=
| pd_digits sep dd s : plain_sep sep -> digits dd -> (1 <= List.length dd <= 2)%nat -> ordinal_suffix s -> plain_day sep (dd ++ s) (decimal dd)
| pd_one sep w n : plain_sep sep -> sep <> [] -> In (w, n) ordinal_single -> plain_day sep (bs w) n
| pd_twenty sep c w n : plain_sep sep -> sep <> [] -> c = " "%char \/ c = "-"%char -> In (w, n) ordinal_units -> plain_day sep (bs "twenty" ++ c :: bs w) (20 + n)
| pd_thirty sep c : plain_sep sep -> sep <> [] -> c = " "%char \/ c = "-"%char -> plain_day sep (bs "thirty" ++ c :: bs "first") 31.
Definition plain_to (w : bytes) (o : option (bytes * bool)) : Prop :=
  match o with
  | None => w = []
  | Some (d, b) => b = true /\ exists to sp s sp', w = to ++ sp ++ d ++ s ++ sp' /\ (to = bs "to" \/ to = bs "-") /\ spaced sp /\ digits d /\ (1 <= List.length d <= 2)%nat /\ ordinal_suffix s /\ spaced sp' /\ sp' <> []
  end.
(** a year without era is four digits and exactly one space; with an era, any spaces *)
Definition plain_year (w : bytes) (o : option (bytes * era)) : Prop :=
  match o with
  | None => w = []
  | Some (yy, e) => digits yy /\ exists c sp0, (c = [] /\ sp0 = [] \/ c = bs ",") /\ spaced sp0 /\
      match e with
      | NoEra => List.length yy = 4%nat /\ w = c ++ sp0 ++ yy ++ bs " "
      | _ => (List.length yy = 4%nat \/ e <> BE /\ (1 <= List.length yy <= 3)%nat) /\ exists sp sp', w = c ++ sp0 ++ yy ++ sp ++ era_word e ++ sp' /\ spaced sp /\ spaced sp' /\ sp' <> []
      end
  end.
Definition plain_month_day (tx : bytes) (x : month_day) : Prop :=
  exists l mw sep dw sp rg yr, tx = l ++ mw ++ sep ++ dw ++ sp ++ rg ++ yr /\ plain_weekday l (md_weekday x) /\ month_word mw (md_month x) /\ plain_day sep dw (md_day x) /\
    spaced sp /\ sp <> [] /\ plain_to rg (md_to x) /\ plain_year yr (md_year x).
(** a word follows, and it does not begin with "am", "pm", "ad", "bc", "be" or "to", which the program could take for a part of the date;
    "to" followed by a space and the name of a month or of a day of the week is fine *)
Definition confusing : list string := ["am"; "pm"; "ad"; "bc"; "be"; "to"]%string.
Definition to_date (T : bytes) : Prop := exists w v, T = bs "to " ++ w ++ v /\ ((exists m, month_word w m) \/ exists k, weekday_word w k).
Definition next_word (T : bytes) : Prop :=
  (exists c T', T = c :: T' /\ is_word c = true /\ is_digit c = false /\ forall w, In w confusing -> ~ exists v, T = bs w ++ v) \/ to_date T.
(** no year is written that counts: none at all, or 1 BC or 542 BE, whose number -1 the program takes for "none" *)
Definition year_missing (x : month_day) : Prop := match md_year x with None => True | Some (yy, e) => year_in_era e (decimal yy) = -1 end.
Definition names_month (t : bytes) : Prop := exists w m, month_word w m /\ occurs w t.
