(** * Refiners: src/refiners/*.hpp and src/refiners/en/*.hpp

    Every [refine(Result r, std::string t)] takes its vector by value, so the elements
    are copies ([res_copy]) of the caller's. *)
From Verif Require Import Base Regex RegexParse Calendar Components Utils.
Open Scope string_scope.
Open Scope list_scope.
Open Scope Z_scope.

(** [text.substr(pos, n)] with 64-bit unsigned arguments: [n] is cut to the text's length first (this
    only avoids building a huge [nat]). *)
Definition substrZ (t : bytes) (pos n : Z) : outcome bytes :=
  let len := Z.of_nat (List.length t) in
  if len <? pos then Throw OutOfRange
  else Ret (firstn (Z.to_nat (Z.min n len)) (skipn (Z.to_nat pos) t)).

(** index + textLength: [unsigned] + [size_t] is computed in 64 bits *)
Definition res_stop (r : result) : Z := getIndex r + textLength r.

(** ** OverlapRemovalRefiner.hpp *)
(** OverlapRemovalRefiner.hpp:23-35, [prev] = prevResult *)
Fixpoint overlap_loop (prev : result) (rs : list result) : list result :=
  match rs with
  | [] => if isEmpty prev then [] else [prev]
  | tmp :: rs' =>
      if getIndex tmp <? res_stop prev
      then if textLength prev <? textLength tmp then overlap_loop (res_assign tmp) rs'
           else overlap_loop prev rs'
      else res_copy prev :: overlap_loop (res_assign tmp) rs'
  end.
(** OverlapRemovalRefiner.hpp:14-38 *)
Definition overlap_refine (rs : list result) : list result :=
  match map res_copy rs with
  | [] => []
  | [r] => [r]
  | r :: rs' => overlap_loop (res_copy r) rs'
  end.

(** ** ExtractTimeZoneAbbreviation.hpp *)
(** ExtractTimeZoneAbbreviation.hpp:6 *)
Definition tz_pattern : bytes := bs "^\s*\(?([A-Z]{2,4})\)?(?=\W|$)".

(** ExtractTimeZoneAbbreviation.hpp:17-49, the body of the loop for one result.  The out_of_range of
    line 22 is caught.  Lines 33-39: both assignments go to the start. *)
Definition tz_one (re_tz : re) (text : bytes) (res : result) : result :=
  let '(is_time, res) := getTag TTimeExpression res in
  if is_time : bool then
    match substrZ text (res_stop res) (Z.of_nat (List.length text)) with
    | Ret tmp =>
        match full_match true re_tz tmp with
        | Some m =>
            match tbl_find (to_upper (grp m 1)) TIMEZONES with
            | Some offset =>
                let res := if isCertain "tzoffset" (r_start res) then res
                           else with_start (setTimeZoneOffset offset (r_start res)) res in
                let res := if has_end res && negb (isCertain "tzoffset" (r_endc res))
                           then with_start (setTimeZoneOffset offset (r_start res)) res else res in
                setTag TExtractTZ (setText (grp m 1) res)
            | None => res
            end
        | None => res
        end
    | _ => res
    end
  else res.
(** ExtractTimeZoneAbbreviation.hpp:13-51 *)
Definition tz_refine (rs : list result) (text : bytes) : outcome (list result) :=
  with_re tz_pattern (fun r => Ret (map (fun x => res_copy (tz_one r text x)) (map res_copy rs))).

(** ** ENMergeDateAndTimeRefiner.hpp *)
(** :7 *)
Definition mdt_pattern : bytes := bs "(T|at|on|of|,|-)?".
(** :13-15, :17-19 *)
Definition isDateOnly (r : result) : bool := negb (isCertain "hour" (r_start r)).
Definition isTimeOnly (r : result) : bool :=
  negb (isCertain "month" (r_start r)) && negb (isCertain "mday" (r_start r)).
(** :21-24; the second argument of substr is a length, so the text after [prev] is searched *)
Definition mdt_able (text : bytes) (prev curr : result) : outcome bool :=
  between <- substrZ text (res_stop prev) (getIndex curr) ;;
  with_re mdt_pattern (fun r => Ret (match search true r between with Some _ => true | None => false end)).
(** :26-53 *)
Definition mergeDateTimeComponent (dateComp timeComp : pc) : pc :=
  if isCertain "hour" timeComp then
    let p := setMinute (getMinute timeComp) (setHour (getHour timeComp) dateComp) in
    if isCertain "sec" timeComp then setSeconds (getSeconds timeComp) p
    else implyComponent "sec" (getSeconds timeComp) p
  else
    implyComponent "sec" (getSeconds timeComp)
      (implyComponent "min" (getMinute timeComp) (implyComponent "hour" (getHour timeComp) dateComp)).

(** the tag-copying loops: ENMergeDateAndTimeRefiner.hpp:94-97, ENMergeDateRangeRefiner.hpp:69-72 *)
Definition copy_tags (src dst : result) : result :=
  fold_left (fun d m => if tag_is m src then setTag m d else d) ModList dst.

(** :67-84, the end of the merged result *)
Definition mdt_end (dateR timeR : result) (startDT : pc) : outcome result :=
  if has_end dateR || has_end timeR then
    let endDate := if has_end dateR then r_endc dateR else r_start dateR in
    let endTime := if has_end timeR then r_endc timeR else r_start timeR in
    let endDT := mergeDateTimeComponent endDate endTime in
    endDT' <- (if has_end dateR then Ret endDT
               else ed <- pc_date endDT ;; sd <- pc_date startDT ;;
                    Ret (if ed <? sd then
                           if isCertain "mday" endDT then set_mDay (get_mDay endDT + 1) endDT
                           else implyComponent "mday" (get_mDay endDT + 1) endDT
                         else endDT)) ;;
    Ret (makeEndDateValid (with_end endDT' dateR))
  else Ret dateR.
(** :55-100 *)
Definition mdt_merge (text : bytes) (dateR0 timeR0 : result) : outcome result :=
  let dateR := res_copy dateR0 in
  let timeR := res_copy timeR0 in
  let startDT := mergeDateTimeComponent (r_start dateR) (r_start timeR) in
  dateR1 <- mdt_end dateR timeR startDT ;;
  let dateR2 := with_start startDT dateR1 in
  let startIndex := Z.min (getIndex dateR) (getIndex timeR) in
  let endIndex := Z.max (res_stop dateR) (res_stop timeR) in
  tx <- substrZ text startIndex (endIndex - startIndex) ;;
  Ret (res_copy (setTag TMergeDateAndTime (copy_tags timeR (setText tx (setIndex startIndex dateR2))))).

(** :119 and :129, which of the two is the date: [Some (date, time)] if they are merged *)
Definition mdt_pair (text : bytes) (prev curr : result) : outcome (option (result * result)) :=
  a <- (if isDateOnly prev && isTimeOnly curr then mdt_able text prev curr else Ret false) ;;
  if a : bool then Ret (Some (prev, curr)) else
  b <- (if isDateOnly curr && isTimeOnly prev then mdt_able text prev curr else Ret false) ;;
  Ret (if b : bool then Some (curr, prev) else None).

(** :115-143.  [l] = r[i-1], r[i], ...; [curr] = the variable of that name at the loop's end test.
    After a merge at i, curr becomes r[i+1] if that exists (line 122, r.at) and i advances by two. *)
Fixpoint mdt_loop (text : bytes) (curr : result) (l : list result) : outcome (list result) :=
  match l with
  | prev :: ((c :: rest) as l') =>
      pr <- mdt_pair text prev c ;;
      match pr with
      | Some (d, t) =>
          merged <- mdt_merge text d t ;;
          out <- mdt_loop text (match rest with x :: _ => x | [] => c end) rest ;;
          Ret (merged :: out)
      | None =>
          out <- mdt_loop text c l' ;;
          Ret (prev :: out)
      end
  | _ => Ret (if isEmpty curr then [] else [curr])
  end.
(** :102-146 *)
Definition mdt_refine (rs : list result) (text : bytes) : outcome (list result) :=
  match map res_copy rs with
  | [] => Ret []
  | [r] => Ret [r]
  | l => mdt_loop text res_default l
  end.

(** ** ENMergeDateRangeRefiner.hpp *)
(** :7 *)
Definition mdr_pattern : bytes := bs "\s*(and|to|through|\-)\s*".
(** :78-92; begin and end - begin are computed in [unsigned] *)
Definition mdr_able (text : bytes) (r1 r2 : result) : outcome bool :=
  let begin := u32 (res_stop r1) in
  let stop := getIndex r2 in
  between <- substrZ text begin (u32 (stop - begin)) ;;
  with_re mdr_pattern (fun r => Ret (match search false r between with Some _ => true | None => false end)).
(** :45-76.  Lines 55-57: the intended swap leaves both variables equal to [from]. *)
Definition mdr_merge (text : bytes) (from0 to0 : result) : outcome result :=
  let from := res_copy from0 in
  let to := res_copy to0 in
  fd <- pc_date (r_start from) ;;
  td <- pc_date (r_start to) ;;
  let '(from, to) := if td <? fd then (from, from) else (from, to) in
  let merged := makeEndDateValid (with_end (r_start to) from) in
  let startIndex := Z.min (getIndex merged) (getIndex to) in
  let endIndex := Z.max (res_stop merged) (res_stop to) in
  tx <- substrZ text startIndex (endIndex - startIndex + 1) ;;
  Ret (res_copy (setTag TMergeDateRange (copy_tags to (setText tx (setIndex startIndex merged))))).

(** :26-39.  [prev] = the variable of that name, pushed once more after the loop. *)
Fixpoint mdr_loop (text : bytes) (prev : result) (l : list result) : outcome (list result) :=
  match l with
  | p :: ((c :: rest) as l') =>
      able <- (if negb (has_end p) && negb (has_end c) then mdr_able text p c else Ret false) ;;
      if able : bool then
        merged <- mdr_merge text p c ;;
        out <- mdr_loop text merged rest ;;
        Ret (merged :: out)
      else
        out <- mdr_loop text p l' ;;
        Ret (p :: out)
  | _ => Ret (if isEmpty prev then [] else [prev])
  end.
(** :18-42 *)
Definition mdr_refine (rs : list result) (text : bytes) : outcome (list result) :=
  match map res_copy rs with
  | [] => Ret []
  | [r] => Ret [r]
  | l => mdr_loop text res_default l
  end.
