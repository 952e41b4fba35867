(** * src/parsers/en/ENTimeExpressionParser.hpp *)
From Verif Require Import Base Regex RegexParse Calendar Components Utils Execute P_TimeAgo.

(** ENTimeExpressionParser.hpp:23-33 (UTF-8 bytes as in the source) *)
Definition time_expression_pattern : bytes :=
  bs "(^|\s|T)(?:(?:at|from)\s*)?" ++
  bs "?(\d{1,4}|noon|midnight)(?:(?:\.|\:|\：)(\d{1,2})(?:(?:\:|\：)" ++
  bs "(\d{2})(?:\.(\d{1,6}))?)?)?(?:\s*(A\.M\.?|P\.M\.?|AM?|PM?|" ++
  bs "O\W*CLOCK))?(?=\W|$)" ++
  bs " ?((^|\s*)(\-|\–|\~|\〜|to|\?)\s*(\d{1,4})(?:(?:\.|\:|\：)" ++
  bs "(\d{1,2})(?:(?:\.|\:|\：)(\d{1,2})(?:\.(\d{1,6}))?)?)?(?:\s*" ++
  bs "(A\.M\.?|P\.M\.?|AM?|PM?|O\W*CLOCK))?(\b))?".

(** Lines 56-67 and 135-143: noon, midnight or a number *)
Definition clock_hour (w : bytes) : outcome Z :=
  if beq w (bs "noon") then Ret 12
  else if beq w (bs "midnight") then Ret 0
  else stoi w.

(** Lines 70-76 and 145-151: (hour, minute); "1630" style when no minutes are written *)
Definition clock_minute (hour : Z) (mins : bytes) : outcome (Z * Z) :=
  if is_nil mins then
    (if 100 <? hour then Ret (hour / 100, hour mod 100) else Ret (hour, 0))
  else mi <- stoi mins ;; Ret (hour, mi).

Definition first_char (w : bytes) : ascii := match w with c :: _ => c | [] => zero end.

(** am/pm adjustment of lines 92-100, 164-170, 181-186 *)
Definition meridiem (c : ascii) (hour : Z) : Z :=
  let h := if Ascii.eqb c "a" then (if hour =? 12 then 0 else hour) else hour in
  if Ascii.eqb c "p" then (if h =? 12 then h else h + 12) else h.

(** ENTimeExpressionParser.hpp:128-203, the "to" part. [hour] = start hour, [ampm] = the start marker's character, read only on
    line 181: an uninitialised variable when the start has no marker. *)
Definition time_expression_to (e : env) (m : mres) (ref : ptime) (hour : Z) (res : result) : outcome result :=
  with_re (bs "^\s*(\+|\-)\s*\d{3,4}$") (fun r =>
  match full_match false r (grp m 7) with
  | Some _ => Ret res
  | None =>
    to_hour <- clock_hour (grp m 10) ;;
    '(to_hour, to_minute) <- clock_minute to_hour (grp m 11) ;;
    if (60 <=? to_minute) || (24 <? to_hour) then Ret res else
    let finish (to_hour : Z) (res : result) :=
      let set_rest (res : result) :=
        d <- pt_date ref ;;
        dd <- d_day d ;; mo <- d_month d ;; y <- d_year d ;;
        Ret (on_end (fun p => implyComponent "year" y (implyComponent "month" mo (implyComponent "mday" dd
                              (setMinute to_minute (setHour to_hour p))))) (makeEndDateValid res)) in
      if is_nil (grp m 12) then set_rest res
      else s <- stoi (grp m 12) ;;
           if (60 <=? s) || (s <? 0) then Ret res
           else set_rest (on_end (setSeconds s) res) in
    if negb (is_nil (grp m 14)) then
      if 12 <? to_hour then Ret res else
      (* line 163: [char &ampm = match.str(..)[0]] refers into a destroyed temporary;
         it is read on lines 164 and 168 *)
      c1 <- read_dangling e (first_char (grp m 14)) ;;
      let to_hour := if Ascii.eqb c1 "a" then (if to_hour =? 12 then 0 else to_hour) else to_hour in
      c2 <- read_dangling e (first_char (grp m 14)) ;;
      if Ascii.eqb c2 "p" then
        let to_hour := if to_hour =? 12 then to_hour else to_hour + 12 in
        let res := if is_nil (grp m 6) && negb (hour =? 12)
                   then on_start (setHour (hour + 12)) res else res in
        finish to_hour res
      else finish to_hour res
    else
      c <- (if is_nil (grp m 6) then read_uninit e else Ret (first_char (grp m 6))) ;;
      finish (meridiem c to_hour) res
  end).

(** ENTimeExpressionParser.hpp:35-205 *)
Definition time_expression_extract (e : env) (_ : gwords) (tx : bytes) (m : mres) (ref : ptime) (idx : Z)
  : outcome result :=
  text <- substr_from (grp m 0) (List.length (grp m 1)) ;;
  let res := res_new ref idx text in
  stop <- single_word_tail tx (m_pos m) ;;
  if stop : bool then Ret res else
  (* lines 48-54 *)
  sec <- (if is_nil (grp m 4) then Ret None else s <- stoi (grp m 4) ;; Ret (Some s)) ;;
  if match sec with Some s => 60 <=? s | None => false end then Ret res else
  let res := match sec with Some s => on_start (setSeconds s) res | None => res end in
  hour <- clock_hour (grp m 2) ;;
  '(hour, minute) <- clock_minute hour (grp m 3) ;;
  if 60 <=? minute then Ret res else
  if 24 <? hour then Ret res else
  if negb (is_nil (grp m 6)) && (12 <? hour) then Ret res else
  let hour := if is_nil (grp m 6) then hour else meridiem (first_char (grp m 6)) hour in
  d <- pt_date ref ;;
  dd <- d_day d ;; mo <- d_month d ;; y <- d_year d ;;
  let res := on_start (fun p => implyComponent "year" y (implyComponent "month" mo (implyComponent "mday" dd
                                (setMinute minute (setHour hour p))))) res in
  let res := setTag TTimeExpression res in
  if is_nil (grp m 7) then Ret res else time_expression_to e m ref hour res.

Definition time_expression : parser :=
  {| p_pattern := time_expression_pattern; p_extract := pure_extract time_expression_extract |}.
