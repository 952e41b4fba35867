(** * Main: time.cpp *)
From Verif Require Import Base Regex RegexParse Calendar Components Utils Execute Refiners.
From Verif Require Import P_CasualDate P_CasualTime P_DayOfWeek P_Deadline P_ISO P_MonthName P_MiddleEndian
  P_TimeAgo P_TimeLater P_TimeExpression P_Holiday P_Week.
Open Scope string_scope.
Open Scope list_scope.
Open Scope Z_scope.

(** time.cpp:62, in list order *)
Definition parsers : list parser :=
  [casual_time; deadline; day_of_week; casual_date; middle_endian; time_later; month_name; time_ago;
   time_expression; iso; holiday; week].

(** time.cpp:76-79: every parser runs on the (by then lower-cased) string; results are appended. *)
Fixpoint run_parsers (e : env) (ps : list parser) (g : gwords) (str : bytes) (t : ptime) (acc : list result)
  : gwords * bytes * outcome (list result) :=
  match ps with
  | [] => (g, str, Ret acc)
  | p :: ps' =>
      let x := execute e p g str t in
      match x_res x with
      | Ret rs => run_parsers e ps' (x_words x) (x_text x) t (acc ++ map res_copy rs)
      | o => (x_words x, x_text x, o)
      end
  end.

(** time.cpp:63 and 86-88 *)
Definition run_refiners (rs : list result) (str : bytes) : outcome (list result) :=
  let r1 := overlap_refine rs in
  r2 <- tz_refine r1 str ;;
  r3 <- mdt_refine r2 str ;;
  mdr_refine r3 str.

(** time.cpp:90-93 (without the final newline) *)
Definition invalid_message : bytes := bs "[???] -- Invalid date".
Definition show (rs : list result) : outcome bytes :=
  match rs with
  | [] => Ret invalid_message
  | r :: _ => s <- toDate r ;; Ret (bs "Date:" ++ [ascii_of_N 9] ++ s)
  end.

(** time.cpp:65-95 with the reference time [t] given; [sortf] is std::sort on the index (lines 81-84),
    of which only "a permutation with non-decreasing index" is known. *)
Definition main (e : env) (sortf : list result -> list result) (g : gwords) (str : bytes) (t : ptime)
  : outcome bytes :=
  let '(_, str', o) := run_parsers e parsers g str t [] in
  rs <- o ;;
  rs' <- run_refiners (sortf rs) str' ;;
  show rs'.

(** std::sort for at most sixteen elements in libstdc++ is insertion sort, which is stable. *)
Fixpoint insert_res (r : result) (l : list result) : list result :=
  match l with
  | [] => [r]
  | x :: l' => if getIndex x <=? getIndex r then x :: insert_res r l' else r :: l
  end.
Definition sort_stable (l : list result) : list result := fold_left (fun acc r => insert_res r acc) l [].
