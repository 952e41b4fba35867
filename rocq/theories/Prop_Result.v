(** * Properties of ParsedComponents and ParsedResult (C01-C06, C08, C09, C11) *)
From Verif Require Import Base Calendar Components Spec View ResultFacts.
Open Scope string_scope.
Open Scope list_scope.
Open Scope Z_scope.

(** C01.  After any history of calls (most recent first) every getter returns the last value set,
    else the last value implied, else 0. *)
Theorem C01_reads_return_last_write : forall (h : list cop) (f : field),
  api_get f (run_cops h) =
  match last_set f h with
  | Some v => v
  | None => match last_implied f h with Some v => v | None => 0 end
  end.
Proof. exact get_after_history. Qed.
Print Assumptions C01_reads_return_last_write.

Example C01_case :
  let h := [CImply "mday" 9; CSet Month 5; CImply "month" 7; CSet Year 2020; CImply "year" 1999] in
  api_get Year (run_cops h) = 2020 /\ api_get Month (run_cops h) = 5 /\ api_get MDay (run_cops h) = 9 /\
  api_get Hour (run_cops h) = 0.
Proof. repeat split. Qed.

(** C02.  Whatever implyComponent calls [imps] follow a set, the value set is what is read. *)
Theorem C02_implied_never_overrides : forall (f : field) (v : Z) (imps h : list cop),
  Forall (fun o => is_imply o = true) imps ->
  api_get f (run_cops (imps ++ CSet f v :: h)) = v.
Proof. exact imply_never_overrides. Qed.
Print Assumptions C02_implied_never_overrides.

(** ... and what was implied before a set never comes back, whatever follows. *)
Theorem C02_set_discards_implied : forall (f : field) (v : Z) (later h h' : list cop),
  api_get f (run_cops (later ++ CSet f v :: h)) = api_get f (run_cops (later ++ CSet f v :: h')).
Proof. exact set_discards_implied. Qed.
Print Assumptions C02_set_discards_implied.

Example C02_case : Forall (fun o => is_imply o = true) [CImply "hour" 3; CImply "junk" 4; CImply "year" 1].
Proof. repeat constructor. Qed.

(** C03, false for "min": a minute that was set is never reported certain. *)
Theorem C03_certain_refuted : exists (h : list cop) (f : field),
  last_set f h <> None /\ isCertain (field_name f) (run_cops h) = false.
Proof. exact min_certain_witness. Qed.
Print Assumptions C03_certain_refuted.

(** What does hold: the other seven fields are reported exactly, and "min" is never certain. *)
Theorem C03_certain_partial : forall (h : list cop) (f : field), f <> Min ->
  isCertain (field_name f) (run_cops h) = match last_set f h with Some _ => true | None => false end.
Proof. exact certain_after_history. Qed.
Print Assumptions C03_certain_partial.
Theorem C03_min_never_certain : forall h : list cop, isCertain "min" (run_cops h) = false.
Proof. exact min_never_certain. Qed.
Print Assumptions C03_min_never_certain.

Example C03_case : isCertain "hour" (run_cops [CImply "hour" 4; CSet Hour 3]) = true /\
                   isCertain "sec" (run_cops [CImply "sec" 4; CSet Hour 3]) = false /\ Hour <> Min.
Proof. repeat split; discriminate. Qed.

(** C04. *)
Theorem C04_unknown_names_inert : forall (n : string) (v : Z) (p : pc),
  ~ In n (map field_name all_fields) ->
  implyComponent n v p = p /\ isCertain n p = false.
Proof. exact unknown_name_inert. Qed.
Print Assumptions C04_unknown_names_inert.

Example C04_case : ~ In "minute" (map field_name all_fields).
Proof. cbn. intuition discriminate. Qed.

(** C05. *)
Theorem C05_copy_preserves : forall r : result,
  let r' := res_copy r in
  r_anchor r' = r_anchor r /\ getIndex r' = getIndex r /\ r_text r' = r_text r /\ r_tags r' = r_tags r /\
  has_end r' = has_end r /\ r_start r' = r_start r /\ (has_end r = true -> r_endc r' = r_endc r) /\
  hasPossibleDates r' = hasPossibleDates r /\ isEmpty r' = isEmpty r /\ toDate r' = toDate r /\ res_assign r = r'.
Proof. exact copy_preserves. Qed.
Print Assumptions C05_copy_preserves.

(** the same further tag calls on the copy and on the original give the same answers *)
Theorem C05_copy_behaves_alike : forall (r : result) (h : list top) (m : modifier),
  tag_is m (run_tops h (res_copy r)) = tag_is m (run_tops h r) /\
  toDate (run_tops h (res_copy r)) = toDate (run_tops h r).
Proof. exact copy_tops. Qed.
Print Assumptions C05_copy_behaves_alike.

Example C05_case :
  let r := setTag TISO (makeEndDateValid (with_end (setHour 5 pc_default) res_default)) in
  has_end r = true /\ getHour (r_endc (res_copy r)) = 5 /\ tag_is TISO (res_copy r) = true.
Proof. repeat split. Qed.

(** C06, false: reading a tag first makes the later setTag ineffective. *)
Theorem C06_tags_refuted : exists (r : result) (m : modifier),
  tag_is m (setTag m (snd (getTag m r))) = false.
Proof. exact tag_read_first_witness. Qed.
Print Assumptions C06_tags_refuted.

(** What holds: on a fresh result, getTag(m) after any history of calls is true exactly when the first
    call that mentioned m was setTag; and setTag(m) never affects other tags. *)
Theorem C06_tags_partial : forall (h : list top) (r : result) (m : modifier), r_tags r m = None ->
  tag_is m (run_tops h r) = match first_mention m h with Some (TSet _) => true | _ => false end.
Proof. exact tag_after_history. Qed.
Print Assumptions C06_tags_partial.
Theorem C06_other_tags : forall (m m' : modifier) (r : result), m <> m' ->
  tag_is m' (setTag m r) = tag_is m' r.
Proof. exact setTag_other. Qed.
Print Assumptions C06_other_tags.

Example C06_case : r_tags res_default TISO = None /\
  tag_is TISO (run_tops [TGet TRelative; TSet TISO; TGet TISO] res_default) = true.
Proof. repeat split. Qed.

(** C08, false: isPossibleDate() rejects 29 Feb 2000 23:59, a Tuesday. *)
Theorem C08_possible_date_refuted : exists (p : pc) (t : moment),
  denotes p t /\ real_moment t /\ get_wDay p = weekday (mdate t) /\ isPossibleDate p <> Ret true.
Proof. exact possible_date_witness. Qed.
Print Assumptions C08_possible_date_refuted.
(** ... in fact for no real moment with its true weekday does isPossibleDate() say true
    (the year is passed to the library without subtracting 1900). *)
Theorem C08_never_possible : forall (p : pc) (t : moment),
  denotes p t -> real_moment t -> get_wDay p = weekday (mdate t) ->
  isPossibleDate p <> Ret true.
Proof. exact possible_date_never. Qed.
Print Assumptions C08_never_possible.
Theorem C08_possible_date_throws_refuted : exists p : pc, isPossibleDate p = Throw OutOfRange.
Proof. exact possible_date_throws. Qed.
Print Assumptions C08_possible_date_throws_refuted.

Example C08_case :
  let p := set_wDay 2 (setMinute 59 (setHour 23 (set_mDay 29 (setMonth 2 (setYear 2000 pc_default))))) in
  let t := Moment (Cal 2000 2 29) 23 59 0 in
  denotes p t /\ real_moment t /\ get_wDay p = weekday (mdate t).
Proof. concrete. Qed.

(** C09. *)
Theorem C09_toDate_start : forall (r : result) (t : moment),
  denotes (r_start r) t -> real_moment t -> tag_is TExtractTZ r = false -> has_end r = false ->
  toDate r = Ret (bs (written t)).
Proof. exact toDate_start. Qed.
Print Assumptions C09_toDate_start.
Theorem C09_toDate_range : forall (r : result) (t t' : moment),
  denotes (r_start r) t -> real_moment t -> tag_is TExtractTZ r = false ->
  has_end r = true -> denotes (r_endc r) t' -> real_moment t' ->
  toDate r = Ret (bs (written t ++ " - " ++ written t')%string).
Proof. exact toDate_range. Qed.
Print Assumptions C09_toDate_range.
(** different moments are written differently *)
Theorem C09_written_injective : forall t t' : moment,
  real_moment t -> real_moment t' -> written t = written t' -> t = t'.
Proof. exact written_inj. Qed.
Print Assumptions C09_written_injective.

Example C09_case :
  let r := with_start (setSeconds 7 (setHour 23 (set_mDay 29 (setMonth 2 (setYear 2024 pc_default))))) res_default in
  let t := Moment (Cal 2024 2 29) 23 0 7 in
  denotes (r_start r) t /\ real_moment t /\ tag_is TExtractTZ r = false /\ has_end r = false /\
  toDate r = Ret (bs "2024-Feb-29 23:00:07").
Proof. concrete. Qed.

(** C11, false: with an extracted time zone the start is shifted, the end is not. *)
Theorem C11_zone_shift_refuted : exists r : result,
  tag_is TExtractTZ r = true /\ has_end r = true /\ getTimeZoneOffset (r_start r) = 60 /\
  denotes (r_start r) (Moment (Cal 2024 1 2) 3 0 0) /\ denotes (r_endc r) (Moment (Cal 2024 1 2) 5 0 0) /\
  toDate r = Ret (bs "2024-Jan-02 04:00:00 - 2024-Jan-02 05:00:00").
Proof. exact zone_shift_witness. Qed.
Print Assumptions C11_zone_shift_refuted.

(** What holds: the start is shifted by exactly the offset (also across midnight); the end is printed as stored. *)
Theorem C11_zone_shift_start : forall (r : result) (t t' : moment),
  denotes (r_start r) t -> real_moment t -> tag_is TExtractTZ r = true -> has_end r = false ->
  real_date (mdate t') -> seconds_after (60 * getTimeZoneOffset (r_start r)) t t' ->
  toDate r = Ret (bs (written t')).
Proof. exact toDate_shifted. Qed.
Print Assumptions C11_zone_shift_start.
Theorem C11_zone_shift_partial : forall (r : result) (t t1 t' : moment),
  denotes (r_start r) t -> real_moment t -> tag_is TExtractTZ r = true ->
  has_end r = true -> denotes (r_endc r) t' -> real_moment t' ->
  real_date (mdate t1) -> seconds_after (60 * getTimeZoneOffset (r_start r)) t t1 ->
  toDate r = Ret (bs (written t1 ++ " - " ++ written t')%string).
Proof. exact toDate_shifted_range. Qed.
Print Assumptions C11_zone_shift_partial.

Example C11_case :
  let p := setTimeZoneOffset (-540) (setHour 3 (set_mDay 1 (setMonth 1 (setYear 2024 pc_default)))) in
  let r := setTag TExtractTZ (with_start p res_default) in
  denotes (r_start r) (Moment (Cal 2024 1 1) 3 0 0) /\ tag_is TExtractTZ r = true /\
  seconds_after (60 * getTimeZoneOffset (r_start r)) (Moment (Cal 2024 1 1) 3 0 0) (Moment (Cal 2023 12 31) 18 0 0) /\
  toDate r = Ret (bs "2023-Dec-31 18:00:00").
Proof. concrete. Qed.
