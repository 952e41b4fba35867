(** * src/parsers/en/ENISOFormatParser.hpp *)
From Verif Require Import Base Regex RegexParse Calendar Components Utils Execute.

(** ENISOFormatParser.hpp:24-31 *)
Definition iso_pattern : bytes :=
  bs "(\b)" ++
  bs "([0-9]{4})\-([0-9]{1,2})\-([0-9]{1,2})(?:T([0-9]{1,2}):([0-9]{1,2})" ++
  bs "(?::([0-9]{1,2})(?:\.(\d{1,4}))?)?(?:Z|([+-]\d{2}):?(\d{2})?)?)?" ++
  bs "(\b)".

(** ENISOFormatParser.hpp:56-74: the offset in minutes *)
Definition iso_offset (hh mm : bytes) : outcome Z :=
  if is_nil hh then Ret 0 else
  hourOffset <- stoi hh ;;
  minuteOffset <- (if is_nil mm then Ret 0 else stoi mm) ;;
  let offset := hourOffset * 60 in
  Ret (if offset <? 0 then offset - minuteOffset else offset + minuteOffset).

(** ENISOFormatParser.hpp:33-78 *)
Definition iso_extract (_ : env) (_ : gwords) (_ : bytes) (m : mres) (ref : ptime) (idx : Z) : outcome result :=
  let res := res_new ref idx (grp m 0) in
  month <- stoi (grp m 3) ;;
  day <- stoi (grp m 4) ;;
  if (12 <? month) || (month <? 1) || (31 <? day) || (day <? 1) then Ret res else
  year <- stoi (grp m 2) ;;
  let res := on_start (fun p => set_mDay day (setMonth month (setYear year p))) res in
  res <-
    (if is_nil (grp m 5) then Ret res else
       h <- stoi (grp m 5) ;;
       mi <- stoi (grp m 6) ;;
       let res := on_start (fun p => setMinute mi (setHour h p)) res in
       res <- (if is_nil (grp m 7) then Ret res
               else s <- stoi (grp m 7) ;; Ret (on_start (setSeconds s) res)) ;;
       off <- iso_offset (grp m 9) (grp m 10) ;;
       Ret (on_start (setTimeZoneOffset off) res)) ;;
  Ret (setTag TISO res).

Definition iso : parser := {| p_pattern := iso_pattern; p_extract := pure_extract iso_extract |}.
