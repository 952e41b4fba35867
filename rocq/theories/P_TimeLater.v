(** * src/parsers/en/ENTimeLaterParser.hpp *)
From Verif Require Import Base Regex RegexParse Calendar Components Utils Execute P_TimeAgo.

(** ENTimeLaterParser.hpp:13-25; the raw strings contain a double quote after the half group and two backslashes before the
    last s *)
Definition time_later_pattern : bytes :=
  bs "(\b)" ++
  bs "((?:" ++
  bs "((?:one|two|three|four|five|six|seven|eight|nine|ten|eleven|twelve)|" ++
  bs "[0-9]+" ++
  bs "|an?(?:\s*few)?|half(?:\s+an?)?" ++
  bs """)\s+" ++
  bs "(sec(?:onds?)?|min(?:ute)?s?|hours?|weeks?|days?|months?|years?)\\s*)+)" ++
  bs "(?:later|after|from now|henceforth|forward|out)" ++
  bs "(\b)".

(** ENTimeLaterParser.hpp:27-88 *)
Definition time_later_extract (_ : env) (_ : gwords) (_ : bytes) (m : mres) (ref : ptime) (idx : Z)
  : outcome result :=
  text <- substr_from (grp m 0) (List.length (grp m 1)) ;;
  let res := res_new ref idx text in
  stop <- single_word_tail text (m_pos m) ;;
  if stop : bool then Ret res else
  f <- extractDateTimeUnitFragments (grp m 2) ;;
  d0 <- pt_date ref ;;
  '(d, t) <- frag_loop false 1 f frag_order (d0, ref) ;;
  res <- frag_finish f d t res ;;
  Ret (setTag TTimeLater res).

Definition time_later : parser :=
  {| p_pattern := time_later_pattern; p_extract := pure_extract time_later_extract |}.
