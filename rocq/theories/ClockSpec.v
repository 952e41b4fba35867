(** * ClockSpec: how clock times are written and what they mean, independent of the parser *)
From Verif Require Import Base Calendar Components Spec View ParserSpec.
Open Scope string_scope.
Open Scope list_scope.
Open Scope Z_scope.

(** the hour: one to four digits, noon or midnight *)
Inductive hour_says : bytes -> Z -> Prop :=
| hs_noon : hour_says (bs "noon") 12
| hs_midnight : hour_says (bs "midnight") 0
| hs_digits w : digits w -> (1 <= List.length w <= 4)%nat -> hour_says w (decimal w).
(** hour [h] and minutes [mm] (possibly none) written; "1630" is 16:30 *)
Inductive time_says : bytes -> bytes -> Z -> Z -> Prop :=
| ts_minutes h mm k : hour_says h k -> digits mm -> (1 <= List.length mm <= 2)%nat -> time_says h mm k (decimal mm)
| ts_hour h k : hour_says h k -> k <= 100 -> time_says h [] k 0
| ts_military h k : hour_says h k -> 100 < k -> time_says h [] (k / 100) (k mod 100).
(** am, pm, o'clock *)
Inductive marker := NoMarker | Am | Pm | OClock.
Inductive marker_word : bytes -> marker -> Prop :=
| mw_am w : In w ["a"; "am"; "a.m"; "a.m."]%string -> marker_word (bs w) Am
| mw_pm w : In w ["p"; "pm"; "p.m"; "p.m."]%string -> marker_word (bs w) Pm
| mw_oclock s : Forall (fun c => is_word c = false) s -> marker_word (bs "o" ++ s ++ bs "clock") OClock.
Definition on_clock (k : marker) (h : Z) : Z :=
  match k with Am => if h =? 12 then 0 else h | Pm => if h =? 12 then 12 else h + 12 | _ => h end.

(** a written time: the hour, minutes and seconds in digits (empty if there are none) and the marker *)
Record clock := Clock { ck_hour : bytes; ck_min : bytes; ck_sec : bytes; ck_mark : marker }.
Definition colon_mark (s : bytes) : Prop := s = bs ":" \/ s = bs "：".
Definition dot_or_colon (s : bytes) : Prop := s = bs "." \/ colon_mark s.
Inductive minutes_part (second_mark : bytes -> Prop) : bytes -> bytes -> bytes -> Prop :=
| mp_none : minutes_part second_mark [] [] []
| mp_minutes a mm : dot_or_colon a -> digits mm -> (1 <= List.length mm <= 2)%nat -> minutes_part second_mark (a ++ mm) mm []
| mp_seconds a mm b ss f : dot_or_colon a -> digits mm -> (1 <= List.length mm <= 2)%nat -> second_mark b -> digits ss -> (1 <= List.length ss <= 2)%nat ->
    (f = [] \/ exists fr, f = bs "." ++ fr /\ digits fr /\ (1 <= List.length fr <= 6)%nat) -> minutes_part second_mark (a ++ mm ++ b ++ ss ++ f) mm ss.
Inductive mark_part : bytes -> marker -> Prop :=
| kp_none : mark_part [] NoMarker
| kp_some sp w k : blanks sp -> marker_word w k -> mark_part (sp ++ w) k.
Definition clock_form (second_mark : bytes -> Prop) (tx : bytes) (k : clock) : Prop :=
  exists p q, tx = ck_hour k ++ p ++ q /\ (exists h, hour_says (ck_hour k) h) /\ minutes_part second_mark p (ck_min k) (ck_sec k) /\ mark_part q (ck_mark k).
(** the hour and minute it gives, before the marker is applied; minutes under 60, hours up to 24, up to 12 with a marker *)
Definition clock_time (k : clock) (h m : Z) : Prop :=
  time_says (ck_hour k) (ck_min k) h m /\ m < 60 /\ h <= 24 /\ (ck_mark k <> NoMarker -> h <= 12).
Definition clock_seconds (k : clock) (p : pc) : Prop :=
  match ck_sec k with [] => unset Sec p | ss => certain Sec (decimal ss) p /\ decimal ss < 60 end.
(** the seconds, if written, are below 60 *)
Definition seconds_fine (k : clock) : Prop := ck_sec k = [] \/ decimal (ck_sec k) < 60.
(** what may stand in front *)
Definition opening (w : bytes) : Prop := w = [] \/ exists sp, blanks sp /\ (w = bs "at" ++ sp \/ w = bs "from" ++ sp).
(** what separates the two times of a range *)
Definition to_word (w : bytes) : Prop := In w [bs "-"; bs "–"; bs "~"; bs "〜"; bs "to"; bs "?"].
Definition to_text (tx : bytes) (k : clock) : Prop :=
  exists s1 w s2 r, tx = s1 ++ w ++ s2 ++ r /\ blanks s1 /\ to_word w /\ blanks s2 /\ digits (ck_hour k) /\ clock_form dot_or_colon r k.
(** a sign and three or four digits: a time zone, not a second time *)
Definition looks_like_zone (tx : bytes) : Prop :=
  exists s1 w s2 d, tx = s1 ++ w ++ s2 ++ d /\ blanks s1 /\ (w = bs "+" \/ w = bs "-") /\ blanks s2 /\ digits d /\ (3 <= List.length d <= 4)%nat.
(** the start of a range: "pm" at the end only is carried over to the start, unless it says 12 *)
Definition range_start (mk : marker) (h : Z) (mk2 : marker) : Z :=
  match mk, mk2 with NoMarker, Pm => if h =? 12 then 12 else h + 12 | _, _ => on_clock mk h end.
(** ** Phrases, with plain spaces only *)
Definition spaced (s : bytes) : Prop := Forall (fun c => c = " "%char) s.
Definition marks : list (string * marker) :=
  [("a", Am); ("am", Am); ("a.m", Am); ("a.m.", Am); ("p", Pm); ("pm", Pm); ("p.m", Pm); ("p.m.", Pm); ("o'clock", OClock); ("oclock", OClock); ("o clock", OClock)]%string.
Definition am_pm : list (string * marker) := [("am", Am); ("pm", Pm)]%string.
Definition mark_phrase (table : list (string * marker)) (q : bytes) (k : marker) : Prop :=
  (q = [] /\ k = NoMarker) \/ exists sp w, q = sp ++ bs w /\ spaced sp /\ In (w, k) table.
Definition opening_phrase (w : bytes) : Prop := w = [] \/ exists sp, spaced sp /\ (w = bs "at" ++ sp \/ w = bs "from" ++ sp).
(** hour (two-digit seconds) and marker *)
Definition clock_phrase (tx : bytes) (k : clock) : Prop :=
  exists p q, tx = ck_hour k ++ p ++ q /\ (exists h, hour_says (ck_hour k) h) /\ minutes_part colon_mark p (ck_min k) (ck_sec k) /\ (List.length (ck_sec k) <> 1)%nat /\
    mark_phrase marks q (ck_mark k).
(** the simpler times used in ranges: h, hh or hhmm, possibly :mm, possibly am or pm; the first may be noon or midnight *)
Definition simple_clock (tx : bytes) (k : clock) : Prop :=
  exists p q, tx = ck_hour k ++ p ++ q /\ (exists h, hour_says (ck_hour k) h) /\ (List.length (ck_hour k) <> 3)%nat /\ ck_sec k = [] /\
    ((p = [] /\ ck_min k = []) \/ (p = bs ":" ++ ck_min k /\ digits (ck_min k) /\ List.length (ck_min k) = 2%nat)) /\ mark_phrase am_pm q (ck_mark k).
Definition range_opening (w : bytes) : Prop := w = [] \/ exists sp, spaced sp /\ sp <> [] /\ w = bs "from" ++ sp.
(** the separator: a dash or tilde, or the word "to" after at least one space *)
Definition range_separator (w : bytes) : Prop :=
  exists s1 t s2, w = s1 ++ t ++ s2 /\ spaced s1 /\ spaced s2 /\ (In t [bs "-"; bs "–"; bs "~"] \/ (t = bs "to" /\ s1 <> [])).
