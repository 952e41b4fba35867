(** * Reference: the command line of time.cpp and boost::posix_time::time_from_string.

    Boost is a dependency, not part of /repo; what is transcribed are date_time/time_parsing.hpp
    (parse_delimited_time, split, str_from_delimited_time_duration), date_time/date_parsing.hpp (parse_date,
    month_str_to_ushort) and boost::lexical_cast on unsigned short, int and int64. *)
From Verif Require Import Base Regex RegexParse Calendar Components Utils Execute Refiners Main.
Open Scope string_scope.
Open Scope list_scope.
Open Scope Z_scope.

(** boost::tokenizer with boost::char_separator(delims): the maximal non-empty runs of non-delimiters. *)
Fixpoint tokens_from (sep : ascii -> bool) (cur t : bytes) : list bytes :=
  match t with
  | [] => if is_nil cur then [] else [cur]
  | c :: t' => if sep c then (if is_nil cur then tokens_from sep [] t' else cur :: tokens_from sep [] t')
               else tokens_from sep (cur ++ [c]) t'
  end.
Definition tokens (sep : ascii -> bool) (t : bytes) : list bytes := tokens_from sep [] t.

(** lexical_cast of a token to an integer type with maximum [top]: an optional '+', at least one digit and nothing else;
    too large a value is a bad_lexical_cast as well.  A '-' cannot occur: it separates tokens in both calls. *)
Fixpoint all_digits (t : bytes) : bool := match t with [] => true | c :: t' => is_digit c && all_digits t' end.
Definition lexical_cast (top : Z) (t : bytes) : outcome Z :=
  let d := match t with "+"%char :: r => r | _ => t end in
  if is_nil d || negb (all_digits d) then Throw BadCast
  else let v := fst (read_digits d 0 0) in
       if top <? v then Throw BadCast else Ret v.
Definition USHRT_MAX : Z := 65535.
Definition INT64_MAX : Z := 9223372036854775807.

(** month_str_to_ushort: digits, or an English name; 13 for an unknown name *)
Definition month_names : list (bytes * Z) :=
  map (fun p => (bs (fst p), snd p))
  [("jan", 1); ("january", 1); ("feb", 2); ("february", 2); ("mar", 3); ("march", 3); ("apr", 4); ("april", 4); ("may", 5);
   ("jun", 6); ("june", 6); ("jul", 7); ("july", 7); ("aug", 8); ("august", 8); ("sep", 9); ("september", 9);
   ("oct", 10); ("october", 10); ("nov", 11); ("november", 11); ("dec", 12); ("december", 12)].
Definition month_str (t : bytes) : outcome Z :=
  match t with
  | [] => Throw OutOfRange          (* s.at(0); tokens are never empty *)
  | c :: _ => if is_digit c then lexical_cast USHRT_MAX t
              else match find (fun p => beq (fst p) (to_lower t)) month_names with Some p => Ret (snd p) | None => Ret 13 end
  end.

(** parse_date with the order "ymd": at most three tokens are read, missing ones stay 0. *)
Definition date_sep (c : ascii) : bool := existsb (Ascii.eqb c) [","; "-"; "."; " "; "/"]%char.
Definition parse_date (t : bytes) : outcome date :=
  match tokens date_sep t with
  | [] => mk_date 0 0 0
  | y :: [] => y <- lexical_cast USHRT_MAX y ;; mk_date y 0 0
  | y :: m :: [] => y <- lexical_cast USHRT_MAX y ;; m <- month_str m ;; mk_date y m 0
  | y :: m :: d :: _ => y <- lexical_cast USHRT_MAX y ;; m <- month_str m ;; d <- lexical_cast USHRT_MAX d ;; mk_date y m d
  end.

(** str_from_delimited_time_duration: hours, minutes, seconds, fraction (microsecond clock: six digits, the rest dropped);
    further tokens are ignored. *)
Definition time_sep (c : ascii) : bool := existsb (Ascii.eqb c) ["-"; ":"; ","; "."]%char.
Definition fraction (t : bytes) : outcome Z :=
  v <- lexical_cast INT64_MAX (firstn 6 t) ;; Ret (v * 10 ^ (6 - Z.of_nat (List.length (firstn 6 t)))).
Definition field_at (read : bytes -> outcome Z) (n : nat) (l : list bytes) : outcome Z :=
  match nth_error l n with Some t => read t | None => Ret 0 end.
Definition parse_duration (t : bytes) : outcome Z :=
  match t with
  | [] => Throw OutOfRange            (* s.at(0) *)
  | c :: _ =>
      let l := tokens time_sep t in
      h <- field_at (lexical_cast INT_MAX) 0 l ;;
      m <- field_at (lexical_cast USHRT_MAX) 1 l ;;
      s <- field_at (lexical_cast USHRT_MAX) 2 l ;;
      f <- field_at fraction 3 l ;;
      let v := (3600 * h + 60 * m + s) * SEC + f in
      Ret (if Ascii.eqb c "-" then - v else v)
  end.

(** parse_delimited_time(s, ' ') = time_from_string; [split] cuts at the first blank. *)
Fixpoint split_blank (t : bytes) : bytes * bytes :=
  match t with
  | [] => ([], [])
  | c :: t' => if Ascii.eqb c " " then ([], t') else let '(a, b) := split_blank t' in (c :: a, b)
  end.
Definition time_from_string (t : bytes) : outcome ptime :=
  let '(ds, ts) := split_blank t in
  d <- parse_date ds ;;
  td <- parse_duration ts ;;
  Ret (d * DAY + td).

(** time.cpp:28-31 printUsage *)
Definition usage : list bytes :=
  [bs "Usage: ./main [test string] [reference date] (last argument is optional) ";
   bs "If reference date is provided, format should be YYYY-MM-DD HH:MM:SS"].

(** time.cpp:33-96 main, as the lines it prints; [argv] includes the program's name, [now] is
    posix_time::second_clock::local_time().  A fresh process starts with the initial word table. *)
Definition program (e : env) (sortf : list result -> list result) (now : ptime) (argv : list bytes) : outcome (list bytes) :=
  match argv with
  | [_; str] => out <- main e sortf gwords_init str now ;; Ret [out]
  | [_; str; ref] => t <- time_from_string ref ;; out <- main e sortf gwords_init str t ;; Ret [out]
  | _ => Ret usage
  end.
