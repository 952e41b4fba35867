(** * Regex: the executor behind std::regex_search / std::regex_match.

    Models libstdc++'s depth-first (backtracking) executor for ECMAScript regular
    expressions, [bits/regex_executor.tcc].  Only the node kinds that occur in the
    patterns of /repo are present.  Simplifications, all harmless for those
    patterns (checked pattern by pattern):
    - look-aheads contain no capture groups, no '^' and no '\b';
    - no starred sub-expression can match the empty string, so the executor's
      empty-iteration guard never fires;
    - no back-references. *)
From Verif Require Import Base.

Inductive cclass := KDigit | KSpace | KWord.

Inductive citem :=
| CChar (c : ascii)
| CRange (lo hi : ascii)
| CClass (neg : bool) (k : cclass).

Inductive re :=
| REps
| RSet (neg : bool) (items : list citem)
| RCat (a b : re)
| RAlt (a b : re)
| RStar (greedy : bool) (a : re)
| ROpt (greedy : bool) (a : re)
| RGrp (n : nat) (a : re)
| RBol
| REol
| RWb (neg : bool)
| RLook (neg : bool) (a : re).

Definition class_ok (k : cclass) (c : ascii) : bool :=
  match k with KDigit => is_digit c | KSpace => is_space c | KWord => is_word c end.

(** Case-insensitive comparison: characters are compared after tolower; ranges
    accept the character if its lower- or upper-case form lies in the range
    (regex_compiler.h, _RegexTranslator / _BracketMatcher). *)
Definition item_ok (ic : bool) (c : ascii) (i : citem) : bool :=
  match i with
  | CChar d => if ic then Ascii.eqb (lower c) (lower d) else Ascii.eqb c d
  | CRange lo hi => if ic then in_range lo hi (lower c) || in_range lo hi (upper c)
                    else in_range lo hi c
  | CClass neg k => xorb neg (class_ok k c)
  end.

Definition set_ok (ic neg : bool) (items : list citem) (c : ascii) : bool :=
  xorb neg (existsb (item_ok ic c) items).

(** Executor state: previous character (None at the very beginning of the string),
    remaining input, captured groups (latest first). *)
Record st := mkst { s_prev : option ascii; s_rest : bytes; s_caps : list (nat * bytes) }.

Definition word_opt (o : option ascii) : bool :=
  match o with Some c => is_word c | None => false end.

Definition at_wb (s : st) : bool :=
  xorb (word_opt (s_prev s)) (word_opt (hd_error (s_rest s))).

Definition at_bol (s : st) : bool := match s_prev s with None => true | Some _ => false end.
Definition at_eol (s : st) : bool := match s_rest s with [] => true | _ => false end.

(** The text consumed between two states of one run. *)
Definition consumed (s s' : st) : bytes :=
  firstn (List.length (s_rest s) - List.length (s_rest s')) (s_rest s).

Definition orelse {A} (a : option A) (b : option A) : option A :=
  match a with Some _ => a | None => b end.

(** Depth-first matcher in continuation-passing style: first successful path wins;
    alternatives left to right, greedy repeats try one more iteration first. *)
Fixpoint rm (ic : bool) (r : re) (s : st) (k : st -> option st) {struct r} : option st :=
  match r with
  | REps => k s
  | RSet neg items =>
      match s_rest s with
      | [] => None
      | c :: t => if set_ok ic neg items c then k (mkst (Some c) t (s_caps s)) else None
      end
  | RCat a b => rm ic a s (fun s' => rm ic b s' k)
  | RAlt a b => match rm ic a s k with Some x => Some x | None => rm ic b s k end
  | RStar greedy a =>
      (fix star (n : nat) (s : st) {struct n} : option st :=
         match n with
         | O => None
         | S n' =>
             if greedy then
               match rm ic a s (fun s' => if Nat.ltb (List.length (s_rest s')) (List.length (s_rest s))
                                         then star n' s' else None) with
               | Some x => Some x
               | None => k s
               end
             else
               match k s with
               | Some x => Some x
               | None => rm ic a s (fun s' => if Nat.ltb (List.length (s_rest s')) (List.length (s_rest s))
                                             then star n' s' else None)
               end
         end) (S (List.length (s_rest s))) s
  | ROpt greedy a =>
      if greedy then match rm ic a s k with Some x => Some x | None => k s end
      else match k s with Some x => Some x | None => rm ic a s k end
  | RGrp n a => rm ic a s (fun s' => k (mkst (s_prev s') (s_rest s') ((n, consumed s s') :: s_caps s')))
  | RBol => if at_bol s then k s else None
  | REol => if at_eol s then k s else None
  | RWb neg => if xorb neg (at_wb s) then k s else None
  | RLook neg a =>
      match rm ic a s Some with
      | Some _ => if neg then None else k s
      | None => if neg then k s else None
      end
  end.

(** std::smatch: position(0), str(0), str(n). *)
Record mres := { m_pos : nat; m_str : bytes; m_caps : list (nat * bytes) }.

Fixpoint cap_lookup (n : nat) (l : list (nat * bytes)) : bytes :=
  match l with
  | [] => []
  | (m, b) :: l' => if Nat.eqb n m then b else cap_lookup n l'
  end.

(** [match.str(n)]: the empty string for a group that did not take part. *)
Definition grp (m : mres) (n : nat) : bytes :=
  match n with O => m_str m | _ => cap_lookup n (m_caps m) end.

(** std::regex_search: leftmost start position, executor priority from there. *)
Fixpoint search_from (ic : bool) (r : re) (prev : option ascii) (t : bytes) (pos : nat) : option mres :=
  match rm ic r (mkst prev t []) Some with
  | Some s => Some {| m_pos := pos;
                      m_str := firstn (List.length t - List.length (s_rest s)) t;
                      m_caps := s_caps s |}
  | None => match t with
            | [] => None
            | c :: t' => search_from ic r (Some c) t' (S pos)
            end
  end.

Definition search (ic : bool) (r : re) (t : bytes) : option mres := search_from ic r None t 0.

(** std::regex_match: the whole string must match. *)
Definition full_match (ic : bool) (r : re) (t : bytes) : option mres :=
  match rm ic r (mkst None t []) (fun s => match s_rest s with [] => Some s | _ => None end) with
  | Some s => Some {| m_pos := 0; m_str := t; m_caps := s_caps s |}
  | None => None
  end.
