(** * Components: src/result.hpp and src/result.cpp *)
From Verif Require Import Base Calendar.
Open Scope string_scope.
Open Scope list_scope.
Open Scope Z_scope.

(** ** class ParsedComponents *)

(** src/result.hpp:9  typedef unordered_map<string, pair<bool,int>> Components.
    All accesses go through operator[], which yields (false,0) for an absent key;
    so a map is represented by its lookup function. *)
Definition cmap := string -> bool * Z.
Definition cmap_empty : cmap := fun _ => (false, 0).
Definition cput (m : cmap) (k : string) (v : bool * Z) : cmap :=
  fun k' => if String.eqb k' k then v else m k'.

(** src/result.hpp:17-20 *)
Record pc := mkpc { known : cmap; implied : cmap }.

(** result.cpp:7-18 default constructor (all entries (false,0)) *)
Definition pc_default : pc := mkpc cmap_empty cmap_empty.
(** result.cpp:20-22 ParsedComponents(const Components&) *)
Definition pc_of_map (c : cmap) : pc := mkpc c cmap_empty.

(** common body of result.cpp:67-130 (the eight getters) *)
Definition pc_get (f : string) (p : pc) : Z :=
  if fst (known p f) then snd (known p f) else snd (implied p f).
(** result.cpp:67-72 *)  Definition getYear := pc_get "year".
(** result.cpp:74-79 *)  Definition getMonth := pc_get "month".
(** result.cpp:81-86 *)  Definition get_mDay := pc_get "mday".
(** result.cpp:88-93 *)  Definition get_wDay := pc_get "wday".
(** result.cpp:125-130 *) Definition getHour := pc_get "hour".
(** result.cpp:95-100 *) Definition getMinute := pc_get "min".
(** result.cpp:102-107 *) Definition getSeconds := pc_get "sec".
(** result.cpp:109-114 *) Definition getTimeZoneOffset := pc_get "tzoffset".

(** common body of result.cpp:132-186 (the eight setters) *)
Definition pc_set (f : string) (v : Z) (p : pc) : pc :=
  mkpc (cput (known p) f (true, v)) (cput (implied p) f (false, 0)).
(** result.cpp:132-137 *) Definition setYear := pc_set "year".
(** result.cpp:139-144 *) Definition setMonth := pc_set "month".
(** result.cpp:146-151 *) Definition set_mDay := pc_set "mday".
(** result.cpp:153-158 *) Definition set_wDay := pc_set "wday".
(** result.cpp:160-165 *) Definition setHour := pc_set "hour".
(** result.cpp:167-172 *) Definition setMinute := pc_set "min".
(** result.cpp:174-179 *) Definition setSeconds := pc_set "sec".
(** result.cpp:181-186 *) Definition setTimeZoneOffset := pc_set "tzoffset".

(** result.cpp:24-37 ParsedComponents(Components&, Components& anchor) *)
Definition pc_of_anchor (cmp anchor : cmap) : pc :=
  let p := mkpc cmp cmap_empty in
  let p := set_mDay (snd (anchor "mday")) p in
  let p := set_wDay (snd (anchor "wday")) p in
  let p := setMonth (snd (anchor "month") + 1) p in
  let p := setYear (snd (anchor "year")) p in
  let p := setHour (snd (anchor "hour")) p in
  let p := setMinute (snd (anchor "min")) p in
  let p := setSeconds (snd (anchor "sec")) p in
  setTimeZoneOffset (snd (anchor "tzoffset")) p.

(** one branch of result.cpp:194-258 *)
Definition imply_field (f : string) (v : Z) (p : pc) : pc :=
  if fst (known p f) then p else mkpc (known p) (cput (implied p) f (true, v)).

(** result.cpp:194-258 implyComponent (the message on std::cerr is not modelled) *)
Definition implyComponent (comp : string) (v : Z) (p : pc) : pc :=
  if String.eqb comp "year" then imply_field "year" v p
  else if String.eqb comp "month" then imply_field "month" v p
  else if String.eqb comp "mday" then imply_field "mday" v p
  else if String.eqb comp "wday" then imply_field "wday" v p
  else if String.eqb comp "hour" then imply_field "hour" v p
  else if String.eqb comp "min" then imply_field "min" v p
  else if String.eqb comp "sec" then imply_field "sec" v p
  else if String.eqb comp "tzoffset" then imply_field "tzoffset" v p
  else p.

(** result.cpp:260-289 isCertain; note the key "minute" on line 278 *)
Definition isCertain (comp : string) (p : pc) : bool :=
  if String.eqb comp "year" then fst (known p "year")
  else if String.eqb comp "month" then fst (known p "month")
  else if String.eqb comp "mday" then fst (known p "mday")
  else if String.eqb comp "wday" then fst (known p "wday")
  else if String.eqb comp "hour" then fst (known p "hour")
  else if String.eqb comp "min" then fst (known p "minute")
  else if String.eqb comp "sec" then fst (known p "sec")
  else if String.eqb comp "tzoffset" then fst (known p "tzoffset")
  else false.

(** result.cpp:53-65 date() *)
Definition pc_date (p : pc) : outcome ptime :=
  ptime_from_tm (getYear p) (getMonth p) (get_mDay p) (getHour p) (getMinute p) (getSeconds p).

(** result.cpp:291-324 isPossibleDate.  tm_year is set to getYear() without subtracting 1900,
    and ptime_from_tm adds 1900. tm_year of the result is year-1900. *)
Definition isPossibleDate (p : pc) : outcome bool :=
  t <- ptime_from_tm (getYear p + 1900) (getMonth p) (get_mDay p) (getHour p) (getMinute p) (getSeconds p) ;;
  '(y, m, d, w, h, mi, _) <- to_tm t ;;
  Ret ((y - 1900 =? getYear p) && (m - 1 =? getMonth p - 1) && (d =? get_mDay p) &&
       (w =? get_wDay p) && (h =? getHour p) && (mi =? getMinute p)).

(** ** Tags (src/utils/utils.hpp:21-51) *)
Inductive modifier :=
| TCasualTime | TCasualDate | TDeadline | TDayOfWeek | TMiddleEndian | TTimeLater
| TMonthName | TTimeAgo | TISO | TTimeExpression | THolidays | TRelative
| TMergeDateRange | TMergeDateAndTime | TExtractTZ.

Definition mod_num (m : modifier) : nat :=
  match m with
  | TCasualTime => 0 | TCasualDate => 1 | TDeadline => 2 | TDayOfWeek => 3 | TMiddleEndian => 4
  | TTimeLater => 5 | TMonthName => 6 | TTimeAgo => 7 | TISO => 8 | TTimeExpression => 9
  | THolidays => 10 | TRelative => 11 | TMergeDateRange => 12 | TMergeDateAndTime => 13 | TExtractTZ => 14
  end%nat.
Definition mod_eqb (a b : modifier) : bool := Nat.eqb (mod_num a) (mod_num b).

(** utils.hpp:43-51 ModList *)
Definition ModList : list modifier :=
  [TCasualTime; TCasualDate; TDeadline; TDayOfWeek; TMiddleEndian; TTimeLater; TMonthName; TTimeAgo;
   TISO; TTimeExpression; THolidays; TRelative; TMergeDateRange; TMergeDateAndTime; TExtractTZ].

(** utils.hpp:41 unordered_map<Modifiers,bool>: absent or a bool. *)
Definition tagmap := modifier -> option bool.

(** ** class ParsedResult (src/result.hpp:57-87) *)
Record result := mkres {
  r_anchor : option ptime;    (* None = not_a_date_time *)
  r_index  : Z;               (* unsigned *)
  r_text   : bytes;
  r_tags   : tagmap;
  r_start  : pc;
  r_endc   : pc;              (* endDate *)
  r_hasend : bool             (* __end *)
}.

(** result.cpp:328-358 *)
Definition res_default : result := mkres None 0 [] (fun _ => None) pc_default pc_default false.
(** result.cpp:360-369; the long index is converted to unsigned *)
Definition res_new (an : ptime) (idx : Z) (tx : bytes) : result :=
  mkres (Some an) (u32 idx) tx (fun _ => None) pc_default pc_default false.
(** result.cpp:372-384 copy constructor *)
Definition res_copy (r : result) : result :=
  mkres (r_anchor r) (r_index r) (r_text r) (r_tags r) (r_start r)
        (if r_hasend r then r_endc r else pc_default) (r_hasend r).
(** result.cpp:484-494 operator=(ParsedResult pr): the by-value argument is a copy *)
Definition res_assign (r : result) : result := res_copy r.

(** result.cpp:443-477 *)
Definition getIndex (r : result) : Z := r_index r.
Definition setIndex (i : Z) (r : result) : result :=
  mkres (r_anchor r) (u32 i) (r_text r) (r_tags r) (r_start r) (r_endc r) (r_hasend r).
Definition setText (t : bytes) (r : result) : result :=
  mkres (r_anchor r) (r_index r) t (r_tags r) (r_start r) (r_endc r) (r_hasend r).
Definition textLength (r : result) : Z := Z.of_nat (List.length (r_text r)).
Definition isEmpty (r : result) : bool := (r_index r =? 0) && is_nil (r_text r).
Definition has_end (r : result) : bool := r_hasend r.
Definition makeEndDateValid (r : result) : result :=
  mkres (r_anchor r) (r_index r) (r_text r) (r_tags r) (r_start r) (r_endc r) true.

(** assignments to the public members startDate / endDate *)
Definition with_start (p : pc) (r : result) : result :=
  mkres (r_anchor r) (r_index r) (r_text r) (r_tags r) p (r_endc r) (r_hasend r).
Definition with_end (p : pc) (r : result) : result :=
  mkres (r_anchor r) (r_index r) (r_text r) (r_tags r) (r_start r) p (r_hasend r).
Definition with_tags (t : tagmap) (r : result) : result :=
  mkres (r_anchor r) (r_index r) (r_text r) t (r_start r) (r_endc r) (r_hasend r).

(** result.cpp:460-463 setTag: insert only if the key is absent *)
Definition setTag (m : modifier) (r : result) : result :=
  match r_tags r m with
  | Some _ => r
  | None => with_tags (fun m' => if mod_eqb m' m then Some true else r_tags r m') r
  end.
(** result.cpp:479-482 getTag: [tags[m]] inserts false when absent.
    Returns the answer and the updated object. *)
Definition getTag (m : modifier) (r : result) : bool * result :=
  match r_tags r m with
  | Some b => (b, r)
  | None => (false, with_tags (fun m' => if mod_eqb m' m then Some false else r_tags r m') r)
  end.
(** The answer of getTag alone. *)
Definition tag_is (m : modifier) (r : result) : bool := fst (getTag m r).

(** result.cpp:386-398 hasPossibleDates *)
Definition hasPossibleDates (r : result) : bool :=
  negb ((getYear (r_start r) =? 0) && (getMonth (r_start r) =? 0) && (get_mDay (r_start r) =? 0) &&
        (getHour (r_start r) =? 0) && (getMinute (r_start r) =? 0) && (getSeconds (r_start r) =? 0) &&
        negb (r_hasend r)).

(** result.cpp:402-441 toDate.  The shifted end [ed] is computed but the unshifted end is printed. *)
Definition toDate (r : result) : outcome bytes :=
  st <- pc_date (r_start r) ;;
  let st' := if tag_is TExtractTZ r then st + getTimeZoneOffset (r_start r) * MINUTE else st in
  res <- to_simple_string st' ;;
  if r_hasend r then
    ed <- pc_date (r_endc r) ;;
    e <- to_simple_string ed ;;
    Ret (res ++ bs " - " ++ e)%list
  else Ret res.
