(** * src/parsers/en/ENCasualTimeParser.hpp *)
From Verif Require Import Base Regex RegexParse Calendar Components Utils Execute.

(** ENCasualTimeParser.hpp:15-21 *)
Definition casual_time_pattern : bytes :=
  bs "(\b)" ++ bs "((this)?\s*(morning|afternoon|evening|noon|night))" ++ bs "(\b)".

(** ENCasualTimeParser.hpp:23-58 *)
Definition casual_time_extract (_ : env) (_ : gwords) (_ : bytes) (m : mres) (ref : ptime) (idx : Z)
  : outcome result :=
  let text := grp m 0 in
  let res := res_new ref idx text in
  let subs := to_lower (if is_nil (grp m 4) then grp m 3 else grp m 4) in
  let res :=
    if beq subs (bs "afternoon") then on_start (implyComponent "hour" 15) res
    else if beq subs (bs "evening") || beq subs (bs "night") then on_start (implyComponent "hour" 20) res
    else if beq subs (bs "morning") then on_start (implyComponent "hour" 6) res
    else if beq subs (bs "noon") then on_start (implyComponent "hour" 12) res
    else res in
  d <- pt_date ref ;;
  y <- d_year d ;; mo <- d_month d ;; dd <- d_day d ;; w <- d_dow d ;;
  mi <- pt_minutes ref ;;
  Ret (setTag TCasualTime
        (on_start (fun p => implyComponent "min" mi (implyComponent "wday" w (implyComponent "mday" dd
                            (implyComponent "month" mo (implyComponent "year" y p))))) res)).

Definition casual_time : parser :=
  {| p_pattern := casual_time_pattern; p_extract := pure_extract casual_time_extract |}.
