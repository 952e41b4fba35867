(** * RegexParse: compiling a pattern string, libstdc++ [bits/regex_compiler.tcc]
    and [bits/regex_scanner.tcc], ECMAScript grammar.

    [compile pat = None] is [std::regex_error].  Constructs that no pattern of the
    repository uses (back-references, \c \x \u escapes, [[:class:]], ranges written
    with escapes) also give [None]; the compile results recorded next to each
    pattern show that this never happens except for the genuinely ill-formed one. *)
From Verif Require Import Base Regex.

Definition lit (c : ascii) : re := RSet false [CChar c].

Fixpoint ncat (n : nat) (r k : re) : re :=
  match n with O => k | S n' => RCat r (ncat n' r k) end.
(** e{n,m}: n copies, then m-n nested optionals (regex_compiler.tcc, _M_quantifier). *)
Fixpoint nopt (n : nat) (greedy : bool) (r : re) : re :=
  match n with O => REps | S n' => ROpt greedy (RCat r (nopt n' greedy r)) end.

(** [\n \r \t \f \v]; everything else that is not special is the character itself. *)
Definition escape_char (c : ascii) : ascii :=
  if Ascii.eqb c "n" then ascii_of_N 10 else
  if Ascii.eqb c "r" then ascii_of_N 13 else
  if Ascii.eqb c "t" then ascii_of_N 9 else
  if Ascii.eqb c "f" then ascii_of_N 12 else
  if Ascii.eqb c "v" then ascii_of_N 11 else c.

Definition class_escape (c : ascii) : option citem :=
  if Ascii.eqb c "d" then Some (CClass false KDigit) else
  if Ascii.eqb c "D" then Some (CClass true KDigit) else
  if Ascii.eqb c "s" then Some (CClass false KSpace) else
  if Ascii.eqb c "S" then Some (CClass true KSpace) else
  if Ascii.eqb c "w" then Some (CClass false KWord) else
  if Ascii.eqb c "W" then Some (CClass true KWord) else None.

(** Bracket expression body, after '[' and an optional '^'. *)
Fixpoint parse_bracket (fuel : nat) (t : bytes) (acc : list citem) : option (list citem * bytes) :=
  match fuel with
  | O => None
  | S fuel' =>
    match t with
    | [] => None
    | "]"%char :: t' => Some (rev acc, t')
    | "\"%char :: c :: t' =>
        match class_escape c with
        | Some i => parse_bracket fuel' t' (i :: acc)
        | None => parse_bracket fuel' t' (CChar (escape_char c) :: acc)
        end
    | lo :: "-"%char :: hi :: t' =>
        if Ascii.eqb hi "]" then Some (rev (CChar "-" :: CChar lo :: acc), t')
        else parse_bracket fuel' t' (CRange lo hi :: acc)
    | c :: t' => parse_bracket fuel' t' (CChar c :: acc)
    end
  end.

Fixpoint parse_nat (t : bytes) (acc : nat) : nat * bytes :=
  match t with
  | c :: t' => if is_digit c then parse_nat t' (10 * acc + (N.to_nat (code c) - 48))%nat else (acc, t)
  | [] => (acc, [])
  end.

(** Quantifiers, repeatedly (libstdc++: [while (this->_M_quantifier())]). *)
Definition lazy_mark (t : bytes) : bool * bytes :=
  match t with "?"%char :: t' => (false, t') | _ => (true, t) end.

Fixpoint parse_quants (fuel : nat) (r : re) (t : bytes) : option (re * bytes) :=
  match fuel with
  | O => None
  | S fuel' =>
    match t with
    | "*"%char :: t' => let '(g, t2) := lazy_mark t' in parse_quants fuel' (RStar g r) t2
    | "+"%char :: t' => let '(g, t2) := lazy_mark t' in parse_quants fuel' (RCat r (RStar g r)) t2
    | "?"%char :: t' => let '(g, t2) := lazy_mark t' in parse_quants fuel' (ROpt g r) t2
    | "{"%char :: t' =>
        let '(n, t2) := parse_nat t' 0 in
        match t2 with
        | "}"%char :: t3 => let '(g, t4) := lazy_mark t3 in parse_quants fuel' (ncat n r REps) t4
        | ","%char :: t3 =>
            let '(m, t4) := parse_nat t3 0 in
            match t4 with
            | "}"%char :: t5 =>
                let '(g, t6) := lazy_mark t5 in
                if Nat.ltb m n then None else parse_quants fuel' (ncat n r (nopt (m - n) g r)) t6
            | _ => None
            end
        | _ => None
        end
    | _ => Some (r, t)
    end
  end.

(** Disjunction / alternative / term, [n] = next capture group number. *)
Fixpoint parse_disj (fuel : nat) (t : bytes) (n : nat) : option (re * bytes * nat) :=
  match fuel with
  | O => None
  | S fuel' =>
    match parse_alt fuel' t n with
    | Some (a, "|"%char :: t', n') =>
        match parse_disj fuel' t' n' with
        | Some (b, t2, n2) => Some (RAlt a b, t2, n2)
        | None => None
        end
    | x => x
    end
  end
with parse_alt (fuel : nat) (t : bytes) (n : nat) : option (re * bytes * nat) :=
  match fuel with
  | O => None
  | S fuel' =>
    match t with
    | [] => Some (REps, [], n)
    | c0 :: _ =>
      if Ascii.eqb c0 "|" || Ascii.eqb c0 ")" then Some (REps, t, n)
      else match parse_term fuel' t n with
           | Some (a, t', n') =>
               match parse_alt fuel' t' n' with
               | Some (b, t2, n2) => Some (RCat a b, t2, n2)
               | None => None
               end
           | None => None
           end
    end
  end
with parse_term (fuel : nat) (t : bytes) (n : nat) : option (re * bytes * nat) :=
  match fuel with
  | O => None
  | S fuel' =>
    let atom (r : re) (t' : bytes) (n' : nat) :=
      match parse_quants fuel' r t' with
      | Some (r', t2) => Some (r', t2, n')
      | None => None
      end in
    match t with
    | [] => None
    | "^"%char :: t' => Some (RBol, t', n)
    | "$"%char :: t' => Some (REol, t', n)
    | "("%char :: "?"%char :: ":"%char :: t' =>
        match parse_disj fuel' t' n with
        | Some (r, ")"%char :: t2, n2) => atom r t2 n2
        | _ => None
        end
    | "("%char :: "?"%char :: "="%char :: t' =>
        match parse_disj fuel' t' n with
        | Some (r, ")"%char :: t2, n2) => Some (RLook false r, t2, n2)
        | _ => None
        end
    | "("%char :: "?"%char :: "!"%char :: t' =>
        match parse_disj fuel' t' n with
        | Some (r, ")"%char :: t2, n2) => Some (RLook true r, t2, n2)
        | _ => None
        end
    | "("%char :: t' =>
        match parse_disj fuel' t' (S n) with
        | Some (r, ")"%char :: t2, n2) => atom (RGrp n r) t2 n2
        | _ => None
        end
    | "["%char :: "^"%char :: t' =>
        match parse_bracket fuel' t' [] with
        | Some (items, t2) => atom (RSet true items) t2 n
        | None => None
        end
    | "["%char :: t' =>
        match parse_bracket fuel' t' [] with
        | Some (items, t2) => atom (RSet false items) t2 n
        | None => None
        end
    | "."%char :: t' => atom (RSet true [CChar (ascii_of_N 10); CChar (ascii_of_N 13)]) t' n
    | "\"%char :: "b"%char :: t' => Some (RWb false, t', n)
    | "\"%char :: "B"%char :: t' => Some (RWb true, t', n)
    | "\"%char :: c :: t' =>
        match class_escape c with
        | Some i => atom (RSet false [i]) t' n
        | None => if is_digit c || existsb (Ascii.eqb c) ["c"; "x"; "u"]%char then None
                  else atom (lit (escape_char c)) t' n
        end
    | c :: t' =>
        if existsb (Ascii.eqb c) ["*"; "+"; "?"; "{"; "\"; ")"; "|"]%char then None
        else atom (lit c) t' n
    end
  end.

(** Drop the [REps] units the parser leaves at the end of alternatives; the
    executor treats them as no-ops. *)
Fixpoint tidy (r : re) : re :=
  match r with
  | RCat a b => match tidy b with REps => tidy a | b' => match tidy a with REps => b' | a' => RCat a' b' end end
  | RAlt a b => RAlt (tidy a) (tidy b)
  | RStar g a => RStar g (tidy a)
  | ROpt g a => ROpt g (tidy a)
  | RGrp n a => RGrp n (tidy a)
  | RLook g a => RLook g (tidy a)
  | _ => r
  end.

(** The whole pattern must be consumed; a left-over ')' is error_paren. *)
Definition compile (pat : bytes) : option re :=
  match parse_disj (4 * List.length pat + 4) pat 1 with
  | Some (r, [], _) => Some (tidy r)
  | _ => None
  end.
