(** * Execute: src/parsers/parsers.hpp and src/parsers/parsers.cpp *)
From Verif Require Import Base Regex RegexParse Calendar Components Utils.

(** parsers.hpp:11-32: a parser is its pattern (always compiled with std::regex::icase) and its
    virtual extract(remainingText, match, ref, idx).  The global INTEGER_WORDS is passed along. *)
Record parser := {
  p_pattern : bytes;
  p_extract : env -> gwords -> bytes -> mres -> ptime -> Z -> gwords * outcome result
}.

(** Result of execute(): global words afterwards, the caller's string afterwards (it is
    taken by reference and lower-cased, parsers.cpp:30), and the results. *)
Record exec_out := { x_words : gwords; x_text : bytes; x_res : outcome (list result) }.

(** parsers.cpp:40-63, the while loop.  [rem] = remainingText, [acc] = results so far (reversed).
    On the else branch (line 51) remainingText is reassigned, after which match.length(0) on line 55 subtracts
    invalidated iterators: [read_stale]. *)
Fixpoint exec_loop (fuel : nat) (e : env) (p : parser) (r : re) (g : gwords)
         (text rem : bytes) (ref : ptime) (acc : list result) : gwords * outcome (list result) :=
  match fuel with
  | O => (g, OutOfFuel)
  | S fuel' =>
    match search true r rem with
    | None => (g, Ret (rev acc))
    | Some m =>
        let idx := (m_pos m + List.length text - List.length rem)%nat in
        let '(g', o) := p_extract p e g rem m ref (Z.of_nat idx) in
        match o with
        | Ret res =>
            let pos := hasPossibleDates res in
            let len := if pos then Ret (List.length (m_str m))
                       else _ <- substr_from text (m_pos m + 1) ;; read_stale e (List.length (m_str m)) in
            match (l <- len ;; substr_from text (idx + l)) with
            | Ret rem' =>
                exec_loop fuel' e p r g' text rem' ref (if pos then res_copy res :: acc else acc)
            | Throw x => (g', Throw x)
            | UB k => (g', UB k)
            | Unmodelled => (g', Unmodelled)
            | OutOfFuel => (g', OutOfFuel)
            end
        | Throw x => (g', Throw x)
        | UB k => (g', UB k)
        | Unmodelled => (g', Unmodelled)
        | OutOfFuel => (g', OutOfFuel)
        end
    end
  end.

(** parsers.cpp:25-66.  A pattern that does not compile throws std::regex_error in getPattern(), which is
    caught (line 36); [match] stays empty and the result list is empty. *)
Definition execute (e : env) (p : parser) (g : gwords) (text : bytes) (ref : ptime) : exec_out :=
  let t := to_lower text in
  match compile (p_pattern p) with
  | None => {| x_words := g; x_text := t; x_res := Ret [] |}
  | Some r =>
      let '(g', o) := exec_loop (S (List.length t)) e p r g t t ref [] in
      {| x_words := g'; x_text := t; x_res := o |}
  end.

(** helper: an extract that does not touch the global words *)
Definition pure_extract (f : env -> gwords -> bytes -> mres -> ptime -> Z -> outcome result)
  : env -> gwords -> bytes -> mres -> ptime -> Z -> gwords * outcome result :=
  fun e g tx m ref idx => (g, f e g tx m ref idx).

(** startDate.X(...) / endDate.X(...) inside extract functions *)
Definition on_start (f : pc -> pc) (r : result) : result := with_start (f (r_start r)) r.
Definition on_end (f : pc -> pc) (r : result) : result := with_end (f (r_endc r)) r.
