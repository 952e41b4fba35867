(** * SenseSpec: texts that ask for nothing outside the calendar, independent of the parsers *)
From Verif Require Import Base Calendar Components Spec View ParserSpec PhraseSpec ClockSpec MiddleSpec.
Open Scope string_scope.
Open Scope list_scope.
Open Scope Z_scope.

(** a written year well inside the calendar *)
Definition fair_year (e : era) (yy : bytes) : Prop := 1401 <= year_in_era e (decimal yy) <= 9998.
(** the (lower-case) text is sensible *)
Record sensible (tx : bytes) : Prop := Sensible {
  (** no backslash, and no "may." *)
  sn_slash : ~ In "\"%char tx;
  sn_may : ~ occurs (bs "may.") tx;
  (** amounts after "in", "within", "last" and "next" have at most three digits *)
  sn_amount : forall kw sp n, In kw [bs "in"; bs "last"; bs "next"] -> blanks sp -> sp <> [] -> digits n -> occurs (kw ++ sp ++ n) tx -> (List.length n <= 3)%nat;
  (** a day of a month exists in every year: no 30 February, no 31 April, no 29 February *)
  sn_day : forall mw mo sep dw d, month_word mw mo -> date_separator sep -> mday_word dw d -> occurs (mw ++ sep ++ dw) tx -> 1 <= d <= 31 -> d <= month_len 2023 mo;
  (** no ranges of days; years after a month and a day, and after a month, are inside the calendar *)
  sn_days : forall w x, month_day_form w x -> occurs w tx -> md_to x = None /\ match md_year x with None => True | Some (yy, e) => fair_year e yy end;
  sn_year : forall w m sp tail yy sp' e, month_word w m -> blanks sp -> year_tail tail yy (sp' ++ era_word e) -> blanks sp' -> digits yy -> List.length yy = 4%nat ->
    occurs (w ++ sp ++ tail) tx -> fair_year e yy;
  (** a clock time with seconds exists: no 25:00:30 *)
  sn_clock : forall c k, clock_form colon_mark c k -> occurs c tx -> ck_sec k <> [] -> exists h m, clock_time k h m;
  (** no ranges of times *)
  sn_range : forall c k gap s k2, clock_form colon_mark c k -> gap = [] \/ gap = bs " " -> to_text s k2 -> ~ occurs (c ++ gap ++ s) tx
}.
