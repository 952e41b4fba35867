(** * src/parsers/en/ENTimeAgoFormatParser.hpp *)
From Verif Require Import Base Regex RegexParse Calendar Components Utils Execute.
Open Scope string_scope.
Open Scope list_scope.
Open Scope Z_scope.

(** ENTimeAgoFormatParser.hpp:12-19; the raw string contains two backslashes before the s *)
Definition time_ago_pattern : bytes :=
  bs "(\b)(?:within\s*)?((?:((?:one|two|three|four|five|six|seven|eight|nine|" ++
  bs "ten|eleven|twelve)|[0-9]+|an?(?:\s*few)?|half(?:\s*an?)?)\s*(sec(?:onds?)?|" ++
  bs "min(?:ute)?s?|hours?|weeks?|days?|months?|years?)\\s*)+)(?:ago|before|earlier)" ++
  bs "(\b)".

(** ENTimeAgoFormatParser.hpp:27 / ENTimeLaterParser.hpp:32 / ENTimeExpressionParser.hpp:40:
    position(0) > 0 and regex_match(tx.substr(position(0)-1), "\w"), i.e. the tail is exactly one word character.
    For TimeAgo and TimeLater [tx] is the *matched text*, so substr may throw. *)
Definition single_word_tail (tx : bytes) (pos : nat) : outcome bool :=
  if Nat.ltb 0 pos then
    tail <- substr_from tx (pos - 1) ;;
    Ret (match tail with [c] => is_word c | _ => false end)
  else Ret false.

(** One iteration of ENTimeAgoFormatParser.hpp:37-59 for key [k]; [sgn] = -1.  out_of_range is caught and the
    fragment skipped (line 55); with [sgn] = 1 and no handler this is ENTimeLaterParser.hpp:42-64. *)
Definition frag_shift (sgn : Z) (k : string) (v : fnum) (dt : date * ptime) : outcome (date * ptime) :=
  let '(d, t) := dt in
  if String.eqb k "year" then n <- f2int v ;; d' <- add_years d (sgn * n) ;; Ret (d', t)
  else if String.eqb k "month" then n <- f2int v ;; d' <- add_months d (sgn * n) ;; Ret (d', t)
  else if String.eqb k "week" then n <- f2long v ;; Ret (add_weeks d (sgn * n), t)
  else if String.eqb k "day" then n <- f2int v ;; Ret (add_days d (sgn * n), t)
  else if String.eqb k "hour" then n <- f2int v ;; Ret (d, t + sgn * (n * HOUR))
  else if String.eqb k "minute" then n <- f2int v ;; Ret (d, t + sgn * (n * MINUTE))
  else if String.eqb k "second" then n <- f2int v ;; Ret (d, t + sgn * (n * SEC))
  else Ret dt.

(** std::map iterates in key order. *)
Definition frag_order : list string := ["day"; "hour"; "minute"; "month"; "second"; "week"; "year"].

Definition catch_oor {A} (o : outcome A) (dflt : A) : outcome A :=
  match o with Throw OutOfRange => Ret dflt | x => x end.

(** the loop; [catch] = whether out_of_range is caught *)
Fixpoint frag_loop (catch : bool) (sgn : Z) (f : frags) (ks : list string) (dt : date * ptime)
  : outcome (date * ptime) :=
  match ks with
  | [] => Ret dt
  | k :: ks' =>
      match f k with
      | None => frag_loop catch sgn f ks' dt
      | Some v =>
          dt' <- (if catch then catch_oor (frag_shift sgn k v dt) dt else frag_shift sgn k v dt) ;;
          frag_loop catch sgn f ks' dt'
      end
  end.

(** ENTimeAgoFormatParser.hpp:61-79 = ENTimeLaterParser.hpp:66-84 *)
Definition frag_finish (f : frags) (d : date) (t : ptime) (res : result) : outcome result :=
  res <- (if f_pos (frag_get f "hour") || f_pos (frag_get f "minute") || f_pos (frag_get f "second") then
            h <- pt_hours t ;; mi <- pt_minutes t ;; s <- pt_seconds t ;;
            Ret (on_start (fun p => setSeconds s (setMinute mi (setHour h p))) res)
          else Ret res) ;;
  if f_pos (frag_get f "day") || f_pos (frag_get f "month") || f_pos (frag_get f "year") || f_pos (frag_get f "week")
  then
    dd <- d_day d ;; mo <- d_month d ;; y <- d_year d ;;
    Ret (on_start (fun p => setYear y (setMonth mo (set_mDay dd p))) res)
  else
    d' <- pt_date t ;;
    dd <- d_day d' ;; mo <- d_month d' ;; y <- d_year d' ;;
    Ret (on_start (fun p => implyComponent "year" y (implyComponent "month" mo (implyComponent "mday" dd p))) res).

(** ENTimeAgoFormatParser.hpp:21-83 *)
Definition time_ago_extract (_ : env) (_ : gwords) (_ : bytes) (m : mres) (ref : ptime) (idx : Z)
  : outcome result :=
  let text := grp m 0 in
  let res := res_new ref idx text in
  stop <- single_word_tail text (m_pos m) ;;
  if stop : bool then Ret res else
  f <- extractDateTimeUnitFragments (grp m 2) ;;
  d0 <- pt_date ref ;;
  '(d, t) <- frag_loop true (-1) f frag_order (d0, ref) ;;
  res <- frag_finish f d t res ;;
  Ret (setTag TTimeAgo res).

Definition time_ago : parser :=
  {| p_pattern := time_ago_pattern; p_extract := pure_extract time_ago_extract |}.
