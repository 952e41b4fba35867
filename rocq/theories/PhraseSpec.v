(** * PhraseSpec: more of the vocabulary of ParserSpec.v (months, weeks, clock times, units), again independent of the parsers *)
From Verif Require Import Base Calendar Components Spec View ParserSpec.
Open Scope string_scope.
Open Scope list_scope.
Open Scope Z_scope.

(** ** Months *)
Definition month_names : list (string * Z) :=
  [("january", 1); ("february", 2); ("march", 3); ("april", 4); ("may", 5); ("june", 6); ("july", 7); ("august", 8); ("september", 9);
   ("october", 10); ("november", 11); ("december", 12)]%string.
Definition month_short_names : list (string * Z) :=
  [("jan", 1); ("feb", 2); ("mar", 3); ("apr", 4); ("jun", 6); ("jul", 7); ("aug", 8); ("sep", 9); ("sept", 9); ("oct", 10); ("nov", 11); ("dec", 12)]%string.
(** [w] names month [m]: the full name, or an abbreviation with or without a full stop *)
Definition month_word (w : bytes) (m : Z) : Prop :=
  exists s, (In (s, m) month_names /\ w = bs s) \/ (In (s, m) month_short_names /\ (w = bs s \/ w = bs s ++ bs ".")).
(** among the year of [c] and its two neighbours, [y] is the one whose day [d] of month [m] is nearest to [c]; the year of [c] wins a tie *)
Definition distance (c : cal) (m d y : Z) : Z := Z.abs (rd (Cal y m d) - rd c).
Definition nearest_year_to (c : cal) (m d y : Z) : Prop :=
  cy c - 1 <= y <= cy c + 1 /\ (forall y', cy c - 1 <= y' <= cy c + 1 -> distance c m d y <= distance c m d y') /\
  (y <> cy c -> distance c m d y < distance c m d (cy c)).
(** a year in digits with an optional era: Anno Domini, before Christ, Buddhist era *)
Inductive era := NoEra | AD | BC | BE.
Definition era_word (e : era) : bytes := match e with NoEra => [] | AD => bs "ad" | BC => bs "bc" | BE => bs "be" end.
Definition year_in_era (e : era) (y : Z) : Z := match e with NoEra | AD => y | BC => - y | BE => y - 543 end.
(** what follows the month name when a year is given: an optional comma or hyphen, blanks, the digits [yy] and the era text [er] *)
Definition year_tail (tail yy er : bytes) : Prop :=
  exists sep sp, tail = sep ++ sp ++ yy ++ er /\ (sep = [] \/ sep = bs "," \/ sep = bs "-") /\ blanks sp.
(** what a month-name result says *)
Definition month_said (t : moment) (m : Z) (y : option (bytes * era)) (p : pc) : Prop :=
  certain Month m p /\ implied_is MDay 1 p /\ untouched [WDay; Hour; Min; Sec; TzOffset] p /\
  match y with
  | None => exists y, nearest_year_to (mdate t) m 1 y /\ implied_is Year y p
  | Some (yy, e) => (e = NoEra -> 100 <= decimal yy) -> year_in_era e (decimal yy) <> -1 -> certain Year (year_in_era e (decimal yy)) p
  end.

(** ** Ordinal words *)
Definition ordinal_units : list (string * Z) :=
  [("first", 1); ("second", 2); ("third", 3); ("fourth", 4); ("fifth", 5); ("sixth", 6); ("seventh", 7); ("eighth", 8); ("ninth", 9)]%string.
Definition ordinal_single : list (string * Z) :=
  ordinal_units ++
  [("tenth", 10); ("eleventh", 11); ("twelfth", 12); ("thirteenth", 13); ("fourteenth", 14); ("fifteenth", 15); ("sixteenth", 16);
   ("seventeenth", 17); ("eighteenth", 18); ("nineteenth", 19); ("twentieth", 20); ("thirtieth", 30)]%string.
(** only spaces and hyphens *)
Definition gaps (s : bytes) : Prop := Forall (fun c => c = " "%char \/ c = "-"%char) s.
(** [t] is an ordinal word for [n], 1..31 *)
Inductive says_ordinal : bytes -> Z -> Prop :=
| so_one s w n s' : In (w, n) ordinal_single -> gaps s -> gaps s' -> says_ordinal (s ++ bs w ++ s') n
| so_twenty s g w n s' : In (w, n) ordinal_units -> gaps s -> gaps g -> g <> [] -> gaps s' ->
    says_ordinal (s ++ bs "twenty" ++ g ++ bs w ++ s') (20 + n)
| so_thirty s g s' : gaps s -> gaps g -> g <> [] -> gaps s' -> says_ordinal (s ++ bs "thirty" ++ g ++ bs "first" ++ s') 31.

(** ** Sequences of amounts with units, such as "2 weeks 3 days" *)
Definition fragment_words : list (string * string) :=
  [("sec", "second"); ("second", "second"); ("seconds", "second"); ("min", "minute"); ("mins", "minute"); ("minute", "minute"); ("minutes", "minute");
   ("hour", "hour"); ("hours", "hour"); ("day", "day"); ("days", "day"); ("week", "week"); ("weeks", "week"); ("month", "month"); ("months", "month");
   ("year", "year"); ("years", "year")]%string.
(** [t] is a sequence of amounts, each followed by its unit; blanks are required after a unit that is not at the very end *)
Inductive unit_phrases : bytes -> list (quantity * string) -> Prop :=
| up_nil : unit_phrases [] []
| up_last n q sp u k : spells n q -> blanks sp -> In (u, k) fragment_words -> unit_phrases (n ++ sp ++ bs u) [(q, k)]
| up_cons n q sp u k sp' t l : spells n q -> blanks sp -> In (u, k) fragment_words -> blanks sp' -> sp' <> [] -> unit_phrases t l ->
    unit_phrases (n ++ sp ++ bs u ++ sp' ++ t) ((q, k) :: l).
(** the amount last given for unit [k] *)
Fixpoint amount_given (l : list (quantity * string)) (k : string) : option quantity :=
  match l with
  | [] => None
  | (q, k') :: l' => match amount_given l' k with Some q' => Some q' | None => if String.eqb k k' then Some q else None end
  end.
Definition quantity_float (q : quantity) : fnum := match q with Whole k => FInt k | Half => FHalf end.
Definition small_quantity (q : quantity) : Prop := match q with Whole k => k <= 2 ^ 24 | Half => True end.

(** ** "N units ago", "N units later" *)
(** the length in seconds of a clock unit *)
Definition unit_length (k : string) : option Z :=
  if String.eqb k "hour" then Some 3600 else if String.eqb k "minute" then Some 60 else if String.eqb k "second" then Some 1 else None.
(** [c'] is [n] of the calendar unit [k] after [c] *)
Definition units_after (k : string) (n : Z) (c c' : cal) : Prop :=
  if String.eqb k "day" then days_after n c c'
  else if String.eqb k "week" then days_after (7 * n) c c'
  else if String.eqb k "month" then months_after n c c' /\ Z.abs n <= 32767
  else if String.eqb k "year" then months_after (12 * n) c c' /\ Z.abs (12 * n) <= 32767
  else False.
Definition clock_certain (p : pc) (t : moment) : Prop := certain Hour (mhour t) p /\ certain Min (mmin t) p /\ certain Sec (msec t) p.
