(** * MonthSpec: a month name, with or without a year, inside a text (specification) *)
From Verif Require Import Base Spec View ParserSpec PhraseSpec.
Open Scope string_scope.
Open Scope list_scope.
Open Scope nat_scope.

(** the names that the program knows: all but "jun" and "jun." *)
Definition month_spelt (w : bytes) (m : Z) : Prop := month_word w m /\ w <> bs "jun" /\ w <> bs "jun.".
(** what may follow the name: nothing, or a year of four digits after "", " ", ", ", "," or "-", with or without an era *)
Definition year_signs : list string := [""; " "; ", "; "-"; ","].
Definition era_text (w : bytes) (e : era) : Prop := w = era_word e \/ (e = BE /\ w = bs " be").
Inductive year_part : bytes -> option (bytes * era) -> Prop :=
| yp_none : year_part [] None
| yp_year sep yy er e : In sep year_signs -> digits yy -> List.length yy = 4 -> era_text er e -> year_part (bs sep ++ yy ++ er) (Some (yy, e)).
(** [w] names month [m], and the year [y] if there is one *)
Definition month_year (w : bytes) (m : Z) (y : option (bytes * era)) : Prop := exists mw yr, w = mw ++ yr /\ month_spelt mw m /\ year_part yr y.

(** ** Before the name *)
(** what stands between the rest of the text and the name: one character that is neither a digit nor blank, and blanks; or one sign *)
Definition opening_sign (lead : bytes) : Prop :=
  exists x sp, lead = x :: sp /\ is_space x = false /\ blanks sp /\ ((is_digit x = false /\ sp <> []) \/ (is_word x = false /\ sp = [])).
(** the text before the blanks ends in another month, or in another year with an era: the program would take the blanks for a part of that *)
Definition month_ends (pre : bytes) : Prop :=
  exists z w, pre = z ++ w /\ ((exists m, month_word w m) \/ w = bs "may." \/ exists yy sp e, w = yy ++ sp ++ era_word e /\ digits yy /\ List.length yy = 4 /\ blanks sp /\ e <> NoEra).
(** [y ++ lead] may stand before the name *)
Definition month_free (y lead : bytes) : Prop :=
  (y = [] /\ lead = []) \/ (opening_sign lead /\ ~ In "\"%char (y ++ lead) /\ forall x sp, lead = x :: sp -> ~ month_ends (y ++ [x])).

(** ** After it *)
Definition full_name (w : bytes) : Prop := exists s m, In (s, m) month_names /\ s <> "may" /\ w = bs s.
(** the text ends; or a sign follows; or a space and something that is not a number (without a year: a word); without a year, not something that could begin one *)
Definition month_closed (w : bytes) (y : option (bytes * era)) (T : bytes) : Prop :=
  match T with
  | [] => True
  | c :: T' =>
      (is_word c = false /\ is_space c = false /\ (y = None -> c <> ","%char /\ c <> "-"%char /\ (c = "."%char -> full_name w))) \/
      (exists d T2, T = bs " " ++ d :: T2 /\ is_space d = false /\ is_digit d = false /\ match y with None => is_word d = true | Some _ => ~ (exists T3, d :: T2 = bs "be" ++ T3) end) \/
      (y = None /\ exists s d T2, In s [","; ", "; "-"] /\ T = bs s ++ d :: T2 /\ is_space d = false /\ is_digit d = false)
  end.
