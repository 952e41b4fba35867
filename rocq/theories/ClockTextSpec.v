(** * ClockTextSpec: a clock time standing in a running text *)
From Verif Require Import Base Calendar Components Spec View ParserSpec ClockSpec.
Open Scope string_scope.
Open Scope list_scope.
Open Scope nat_scope.

(** ** What follows a clock time *)
(** a second time of a range *)
Definition range_ahead (t : bytes) : Prop := exists s1 w s2 d r, t = s1 ++ w ++ s2 ++ d :: r /\ blanks s1 /\ to_word w /\ blanks s2 /\ is_digit d = true.
(** am, pm or o'clock *)
Definition marker_ahead (t : bytes) : Prop := exists sp w k r, t = sp ++ w ++ r /\ blanks sp /\ marker_word w k /\ (forall c r', r = c :: r' -> is_word c = false).
(** the end, or a character that is no word character; a full stop or a colon only if no digit follows *)
Definition clock_stop (t : bytes) : Prop :=
  match t with [] => True | x :: r => is_word x = false /\ x <> "239"%char /\ (x = "."%char \/ x = ":"%char -> forall d r', r = d :: r' -> is_digit d = false) end.

Definition full_marks : list (string * marker) :=
  [("am", Am); ("a.m.", Am); ("pm", Pm); ("p.m.", Pm); ("o'clock", OClock); ("oclock", OClock); ("o clock", OClock)]%string.
(** a time, written with one of the full markers, and what must not follow it *)
Definition clock_words (tx : bytes) (k : clock) (q : bytes) : Prop :=
  exists p, tx = ck_hour k ++ p ++ q /\ (exists h, hour_says (ck_hour k) h) /\ minutes_part colon_mark p (ck_min k) (ck_sec k) /\ List.length (ck_sec k) <> 1 /\ mark_phrase full_marks q (ck_mark k).
(** ** What stands before it: a blank, and no connecting word ("5 to 6") before that *)
Definition after_connective (pre : bytes) : Prop := exists x w s, pre = x ++ w ++ s /\ to_word w /\ blanks s.
Definition clear_before (pre : bytes) : Prop := (pre = [] \/ exists a b, pre = a ++ [b] /\ is_space b = true) /\ ~ after_connective pre.
(** ** and after it: no word character, no second time of a range, no further am, pm or o'clock *)
Definition clear_after (q post : bytes) : Prop := clock_stop post /\ ~ range_ahead post /\ (q = [] -> ~ marker_ahead post).
(** the one character the text of a result leaves out at its front: a blank or "t" *)
Definition lead_sign (w : bytes) : Prop := w = [] \/ exists c, w = [c] /\ (is_space c = true \/ c = "t"%char).
(** the one space after the time, if there is one *)
Definition gap_after (post : bytes) : bytes := match post with c :: _ => if Ascii.eqb c " " then [" "%char] else [] | [] => [] end.
