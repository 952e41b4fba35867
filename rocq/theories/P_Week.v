(** * src/parsers/en/ENWeekExperessionParser.hpp *)
From Verif Require Import Base Regex RegexParse Calendar Components Utils Execute P_Deadline.

(** ENWeekExperessionParser.hpp:11-20 *)
Definition week_pattern : bytes :=
  bs "(\b)" ++
  bs "((?:last|next)\s+" ++
  bs "(?:(\d+)|(\w{3,9}))?\s*" ++
  bs "weeks?|this\s*week)" ++
  bs "(\b)".

(** ENWeekExperessionParser.hpp:27-37: number of weeks; line 33's operator[] may insert into INTEGER_WORDS.
    (The unsigned map values are 0..12, so line 34's test never holds.) *)
Definition week_count (g : gwords) (m : mres) : gwords * outcome Z :=
  if negb (is_nil (grp m 3)) then (g, stoi (grp m 3))
  else if negb (is_nil (grp m 4)) then
    let '(v, g') := gw_index g (grp m 4) in (g', Ret v)
  else (g, Ret 1).

(** ENWeekExperessionParser.hpp:22-50 *)
Definition week_extract (_ : env) (g : gwords) (_ : bytes) (m : mres) (ref : ptime) (idx : Z)
  : gwords * outcome result :=
  let res := res_new ref idx (grp m 0) in
  match pt_date ref with
  | Ret tmp =>
      let '(g', o) := week_count g m in
      (g', n <- o ;;
           let d := if contains (bs "last") (grp m 2) then add_weeks tmp (- n)
                    else if contains (bs "next") (grp m 2) then add_weeks tmp n
                    else tmp in
           imply_ymd d res)
  | Throw x => (g, Throw x)
  | UB k => (g, UB k)
  | Unmodelled => (g, Unmodelled)
  | OutOfFuel => (g, OutOfFuel)
  end.

Definition week : parser := {| p_pattern := week_pattern; p_extract := week_extract |}.
