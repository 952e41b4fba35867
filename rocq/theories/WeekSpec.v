(** * WeekSpec: more of the vocabulary of ParserSpec.v (weeks and relative dates), again independent of the parsers *)
From Verif Require Import Base Calendar Components Spec View ParserSpec.
Open Scope string_scope.
Open Scope list_scope.
Open Scope Z_scope.

(** ** Weeks *)
(** the number of weeks a word between "last"/"next" and "weeks" stands for: nothing is one, digits and number words count, any other word counts as zero *)
Inductive weeks_said : bytes -> Z -> Prop :=
| ws_none : weeks_said [] 1
| ws_digits w : digits w -> w <> [] -> weeks_said w (decimal w)
| ws_word w k : In (w, k) number_words -> weeks_said (bs w) k
| ws_other w : Forall (fun c => is_word c = true) w -> (3 <= List.length w <= 9)%nat -> ~ digits w -> ~ In w (map (fun x => bs (fst x)) number_words) -> weeks_said w 0.
(** the direction of the key word *)
Definition way (kw : bytes) (s : Z) : Prop := (kw = bs "last" /\ s = -1) \/ (kw = bs "next" /\ s = 1).
Definition week_word (w : bytes) : Prop := w = bs "week" \/ w = bs "weeks".
(** the amounts that name a number of weeks (with the white space that follows them); digits up to the largest int *)
Inductive week_amount : bytes -> bytes -> Z -> Prop :=
| wa_none : week_amount [] [] 1
| wa_digits n s : digits n -> n <> [] -> blanks s -> decimal n <= 2147483647 -> week_amount n s (decimal n)
| wa_word w k s : In (w, k) number_words -> blanks s -> s <> [] -> week_amount (bs w) s k.
