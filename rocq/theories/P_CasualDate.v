(** * src/parsers/en/ENCasualDateParser.hpp *)
From Verif Require Import Base Regex RegexParse Calendar Components Utils Execute.

(** ENCasualDateParser.hpp:13-20 *)
Definition casual_date_pattern : bytes :=
  bs "(\b)" ++
  bs "(now|today|tonight|last\s*night|(?:tomorrow|tmr|yesterday)\s*" ++
  bs "|tomorrow|tmr|yesterday)" ++
  bs "(\b)".

(** ENCasualDateParser.hpp:22-63.  Line 42 searches "last\s*night" case-insensitively. *)
Definition casual_date_extract (_ : env) (_ : gwords) (_ : bytes) (m : mres) (ref : ptime) (idx : Z)
  : outcome result :=
  let text := grp m 0 in
  let res := res_new ref idx text in
  '(tmp, res) <-
    (if starts_with (bs "tonight") text then
       Ret (ref, on_start (implyComponent "hour" 22) res)
     else if starts_with (bs "tomorrow") text || starts_with (bs "tmr") text then
       h <- pt_hours ref ;;
       Ret (if 0 <? h then ref + DAY else ref, res)
     else if starts_with (bs "yesterday") text then
       h <- pt_hours ref ;;
       Ret (ref - DAY, on_start (implyComponent "hour" h) res)
     else with_re (bs "last\s*night") (fun r =>
       match search true r text with
       | Some _ =>
           h <- pt_hours ref ;;
           Ret (if 6 <? h then ref - DAY else ref, on_start (implyComponent "hour" 0) res)
       | None =>
           if beq text (bs "now") then
             h <- pt_hours ref ;; mi <- pt_minutes ref ;; s <- pt_seconds ref ;;
             Ret (ref, on_start (fun p => setSeconds s (setMinute mi (setHour h p))) res)
           else Ret (ref, res)
       end)) ;;
  d <- pt_date tmp ;;
  y <- d_year d ;; mo <- d_month d ;; dd <- d_day d ;;
  Ret (setTag TCasualDate (on_start (fun p => set_mDay dd (setMonth mo (setYear y p))) res)).

Definition casual_date : parser :=
  {| p_pattern := casual_date_pattern; p_extract := pure_extract casual_date_extract |}.
