(** * Base: bytes, C library character functions, std::string helpers, outcomes.

    The C++ program manipulates [std::string]s (byte strings), [int]s, one
    [float] variable per parser, and throws C++ exceptions.  This file fixes how
    those are represented.  Nothing here is specific to chrono-cpp; the comments
    say which library function is meant. *)
From Coq Require Export List ZArith Lia Bool.
From Coq Require Export Ascii String.
Export ListNotations.
Open Scope Z_scope.
Open Scope bool_scope.

(** ** Byte strings: [std::string]. *)
Definition bytes := list ascii.

(** Source-level string literals. *)
Definition bs (s : string) : bytes := list_ascii_of_string s.

Definition code (c : ascii) : N := N_of_ascii c.

Definition in_range (lo hi : ascii) (c : ascii) : bool :=
  N.leb (code lo) (code c) && N.leb (code c) (code hi).

(** C [tolower]/[toupper] in the "C" locale. *)
Definition is_upper (c : ascii) : bool := in_range "A" "Z" c.
Definition is_lower (c : ascii) : bool := in_range "a" "z" c.
Definition lower (c : ascii) : ascii :=
  if is_upper c then ascii_of_N (code c + 32) else c.
Definition upper (c : ascii) : ascii :=
  if is_lower c then ascii_of_N (code c - 32) else c.

(** [isdigit], [isspace], and std::regex's word class ([alnum] or '_'), "C" locale. *)
Definition is_digit (c : ascii) : bool := in_range "0" "9" c.
Definition is_space (c : ascii) : bool :=
  N.eqb (code c) 32 || (N.leb 9 (code c) && N.leb (code c) 13).
Definition is_word (c : ascii) : bool :=
  is_upper c || is_lower c || is_digit c || Ascii.eqb c "_".

Fixpoint beq (a b : bytes) : bool :=
  match a, b with
  | [], [] => true
  | x :: a', y :: b' => Ascii.eqb x y && beq a' b'
  | _, _ => false
  end.

(** src/utils/utils.cpp:4-7 toLowerCase, :9-12 toUpperCase *)
Definition to_lower (t : bytes) : bytes := map lower t.
Definition to_upper (t : bytes) : bytes := map upper t.

(** [text.find(needle) == 0], i.e. the code's [!text.find(..)]. *)
Fixpoint starts_with (needle hay : bytes) : bool :=
  match needle, hay with
  | [], _ => true
  | _ :: _, [] => false
  | x :: n', y :: h' => Ascii.eqb x y && starts_with n' h'
  end.

(** [text.find(needle) != npos]. *)
Fixpoint contains (needle hay : bytes) : bool :=
  starts_with needle hay ||
  match hay with [] => false | _ :: h' => contains needle h' end.

Definition is_nil (t : bytes) : bool := match t with [] => true | _ => false end.

(** ** Outcomes of running a piece of C++. *)
Inductive exn :=
| OutOfRange        (* std::out_of_range and Boost's bad_year/bad_month/bad_day_of_month, which derive from it *)
| InvalidArgument   (* std::invalid_argument *)
| RegexError        (* std::regex_error *)
| BadCast.          (* boost::bad_lexical_cast (Reference.v) *)

Inductive ub_kind :=
| UbUninit          (* read of an uninitialised char *)
| UbDangling        (* read through a dangling reference *)
| UbStaleIter       (* subtraction of invalidated iterators *)
| UbFloatToInt.     (* float value not representable in the target integer type *)

Inductive outcome (A : Type) :=
| Ret (a : A)
| Throw (e : exn)       (* an exception leaves the function *)
| UB (k : ub_kind)
| Unmodelled            (* arithmetic beyond the bounds stated in Calendar.v *)
| OutOfFuel.            (* the model's loop bound was exhausted (shown impossible) *)
Arguments Ret {A} a.
Arguments Throw {A} e.
Arguments UB {A} k.
Arguments Unmodelled {A}.
Arguments OutOfFuel {A}.

Definition bind {A B} (o : outcome A) (f : A -> outcome B) : outcome B :=
  match o with
  | Ret a => f a
  | Throw e => Throw e
  | UB k => UB k
  | Unmodelled => Unmodelled
  | OutOfFuel => OutOfFuel
  end.

Notation "x <- e ;; f" := (bind e (fun x => f))
  (at level 61, e at next level, right associativity).
Notation "' p <- e ;; f" := (bind e (fun p => f))
  (at level 61, p pattern, e at next level, right associativity).

Definition is_ret {A} (o : outcome A) : bool :=
  match o with Ret _ => true | _ => false end.

(** [std::string::substr(pos, n)] / [substr(pos)]. *)
Definition substr (t : bytes) (pos n : nat) : outcome bytes :=
  if Nat.ltb (List.length t) pos then Throw OutOfRange
  else Ret (firstn n (skipn pos t)).
Definition substr_from (t : bytes) (pos : nat) : outcome bytes :=
  if Nat.ltb (List.length t) pos then Throw OutOfRange
  else Ret (skipn pos t).

(** ** Numbers read from text. *)
Definition digit_val (c : ascii) : Z := Z.of_N (code c) - 48.

Fixpoint skip_spaces (t : bytes) : bytes :=
  match t with c :: t' => if is_space c then skip_spaces t' else t | [] => [] end.

(** Longest digit prefix, accumulated in base 10. [n] counts the digits read. *)
Fixpoint read_digits (t : bytes) (acc : Z) (n : nat) : Z * nat :=
  match t with
  | c :: t' => if is_digit c then read_digits t' (10 * acc + digit_val c) (S n) else (acc, n)
  | [] => (acc, n)
  end.

Definition INT_MAX : Z := 2147483647.
Definition INT_MIN : Z := -2147483648.

(** [std::stoi(str)] (base 10): leading white space, optional sign, digits; whatever follows is ignored. *)
Definition stoi (t : bytes) : outcome Z :=
  let t1 := skip_spaces t in
  let '(neg, t2) := match t1 with
                    | "-"%char :: r => (true, r)
                    | "+"%char :: r => (false, r)
                    | r => (false, r)
                    end in
  let '(v, n) := read_digits t2 0 0 in
  match n with
  | O => Throw InvalidArgument
  | S _ => let z := if neg then - v else v in
           if (z <? INT_MIN) || (INT_MAX <? z) then Throw OutOfRange else Ret z
  end.

(** ** Single-precision floats.  The code only ever stores integers or 0.5 in a
    [float]; [FInt z] is the float with integral value [z]. *)
Inductive fnum := FInt (z : Z) | FHalf.

(** Conversion integer -> float, round to nearest even at 24 significant bits (non-negative argument). *)
Definition fround (z : Z) : Z :=
  let bits := Z.log2 z + 1 in
  if bits <=? 24 then z
  else let s := bits - 24 in
       let q := z / 2 ^ s in
       let r := z mod 2 ^ s in
       let h := 2 ^ (s - 1) in
       if (r <? h) || ((r =? h) && Z.even q) then q * 2 ^ s else (q + 1) * 2 ^ s.

(** [std::stof] on a label of the form [0-9]+ or " word" (the only ones that reach it,
    ENRelativeDateFormatParser.hpp:52).  Fractions, exponents, hex, inf and nan cannot occur there. *)
Definition stof (t : bytes) : outcome fnum :=
  let '(v, n) := read_digits (skip_spaces t) 0 0 in
  match n with
  | O => Throw InvalidArgument
  | S _ => if fround v <? 2 ^ 128 then Ret (FInt (fround v)) else Throw OutOfRange
  end.

(** [static_cast<int>(num)], also the implicit conversions float -> int; truncation towards zero. *)
Definition f2int (f : fnum) : outcome Z :=
  match f with
  | FHalf => Ret 0
  | FInt z => if (z <? INT_MIN) || (INT_MAX <? z) then UB UbFloatToInt else Ret z
  end.

(** Implicit conversion float -> long (gregorian::days, gregorian::weeks take long). *)
Definition f2long (f : fnum) : outcome Z :=
  match f with
  | FHalf => Ret 0
  | FInt z => if (z <? - 2 ^ 63) || (2 ^ 63 - 1 <? z) then UB UbFloatToInt else Ret z
  end.

(** [floor(num) == num]. *)
Definition f_whole (f : fnum) : bool := match f with FInt _ => true | FHalf => false end.

(** [num > 0]. *)
Definition f_pos (f : fnum) : bool := match f with FInt z => 0 <? z | FHalf => true end.

(** [unsigned] arithmetic. *)
Definition u32 (z : Z) : Z := z mod 2 ^ 32.
Definition u16 (z : Z) : Z := z mod 2 ^ 16.

(** ** Oracle for reads the C++ standard leaves undefined.
    [None] = the execution is undefined behaviour.  [Some v] = the read yields [v]. *)
Record env := {
  ev_uninit   : option ascii;           (* ENTimeExpressionParser.hpp:45,181,184: uninitialised [ampm_s] *)
  ev_dangling : ascii -> option ascii;  (* :163-168: reference into a destroyed temporary; argument = the char that was there *)
  ev_stale    : nat -> option nat       (* parsers.cpp:51,55: match.length(0) after its string was reassigned *)
}.

(** Everything undefined is UB. *)
Definition strict_env : env :=
  {| ev_uninit := None; ev_dangling := fun _ => None; ev_stale := fun _ => None |}.

(** What a typical unoptimised build does (the repo builds with -O0): invalidated pointers still subtract to the
    old length, the destroyed small string still holds its character, the uninitialised char
    holds some arbitrary value. *)
Definition benign (e : env) : Prop :=
  (exists c, ev_uninit e = Some c) /\
  (forall c, ev_dangling e c = Some c) /\
  (forall n, ev_stale e n = Some n).

Definition benign_env (c : ascii) : env :=
  {| ev_uninit := Some c; ev_dangling := fun c => Some c; ev_stale := fun n => Some n |}.

Definition read_uninit (e : env) : outcome ascii :=
  match ev_uninit e with Some c => Ret c | None => UB UbUninit end.
Definition read_dangling (e : env) (c : ascii) : outcome ascii :=
  match ev_dangling e c with Some c' => Ret c' | None => UB UbDangling end.
Definition read_stale (e : env) (n : nat) : outcome nat :=
  match ev_stale e n with Some n' => Ret n' | None => UB UbStaleIter end.
