(** * Properties of Parser::execute, for all thirteen parsers (C07, C12-C17).
    Vocabulary: [all_parsers] (LocateFacts.v) lists the twelve parsers registered in time.cpp and
    ENRelativeDateFormatParser; [sane e] (ExecuteFacts.v): invalidated iterators are undefined behaviour or subtract to the old length;
    [in_order], [scan], [kept]: ExecuteFacts.v; [words_after]: the process-wide word table after a list of calls. *)
From Verif Require Import Base Regex RegexParse Calendar Components Utils Execute Spec View ParserSpec CalendarFacts RegexFacts ResultFacts
  ExecuteFacts ParserRe MatchFacts FuelFacts LocateFacts HistoryFacts Main.
From Verif Require Import P_CasualDate P_CasualTime P_DayOfWeek P_Deadline P_ISO P_MonthName P_MiddleEndian P_Relative
  P_TimeAgo P_TimeLater P_TimeExpression P_Holiday P_Week.
From Coq Require Import NArith Nnat ZifyBool ZifyNat ZifyN.
Open Scope string_scope.
Open Scope list_scope.
Open Scope Z_scope.

Definition noon2024 : ptime := ptime_of (Moment (Cal 2024 1 2) 12 0 0) 0.
(** an environment in which every undefined read is benign *)
Definition env0 : env := benign_env "x".
Definition run (p : parser) (text : string) : outcome (list result) := x_res (execute env0 p gwords_init (bs text) noon2024).
Definition glance (o : outcome (list result)) : outcome (list (Z * string)) :=
  rs <- o ;; Ret (map (fun r => (getIndex r, string_of_list_ascii (r_text r))) rs).

(** C07. *)
Theorem C07_results_carry_a_date : forall e p g text ref rs res,
  x_res (execute e p g text ref) = Ret rs -> In res rs ->
  hasPossibleDates res = true /\
  (getYear (r_start res) <> 0 \/ getMonth (r_start res) <> 0 \/ get_mDay (r_start res) <> 0 \/ getHour (r_start res) <> 0 \/
   getMinute (r_start res) <> 0 \/ getSeconds (r_start res) <> 0 \/ has_end res = true).
Proof.
  intros e p g text ref rs res H I. pose proof (execute_possible _ _ _ _ _ _ _ H I) as P. split; [exact P|].
  apply possible_meaning. exact P.
Qed.
Print Assumptions C07_results_carry_a_date.

(** the test itself: it says yes exactly to a start with a field different from zero, or to an end *)
Theorem C07_possible_iff : forall r, hasPossibleDates r = true <->
  has_end r = true \/ exists f, In f [Year; Month; MDay; Hour; Min; Sec] /\ api_get f (r_start r) <> 0.
Proof.
  intros r. rewrite possible_meaning. split.
  - intros [H|[H|[H|[H|[H|[H|H]]]]]]; [right; exists Year|right; exists Month|right; exists MDay|right; exists Hour|right; exists Min|right; exists Sec|left; exact H]; (split; [cbn; tauto|exact H]).
  - intros [H|(f & I & H)]; [tauto|]. cbn in I. destruct I as [<-|[<-|[<-|[<-|[<-|[<-|[]]]]]]]; cbn [api_get] in H; tauto.
Qed.
Print Assumptions C07_possible_iff.
Example C07_end_only : hasPossibleDates (makeEndDateValid (res_new noon2024 0 (bs "x"))) = true /\ hasPossibleDates (res_new noon2024 0 (bs "x")) = false.
Proof. split; reflexivity. Qed.
Example C07_case : glance (run casual_date "See you TOMORROW or tonight") = Ret [(8, "tomorrow "); (20, "tonight")].
Proof. vm_compute. reflexivity. Qed.

(** C12.  The model's loop bound (one round per character, plus one) is never exhausted; and the rounds that happen are at most as many as
    there are characters. *)
Theorem C12_execute_terminates : forall e p g text ref, sane e -> In p all_parsers ->
  x_res (execute e p g text ref) <> OutOfFuel.
Proof.
  intros e p g text ref He I. destruct (compile (p_pattern p)) as [r|] eqn:C.
  - apply execute_fuel; [exact He|apply nonempty_all; exact I|]. apply ends_all_parsers; [exact I|].
    intros ->. rewrite day_of_week_compile in C. discriminate.
  - unfold execute. rewrite C. discriminate.
Qed.
Print Assumptions C12_execute_terminates.

Lemma scan_rounds e p r text ref : (1 <= min_len r)%nat -> forall off g l g', scan e p r text ref off g l g' ->
  (off <= List.length text)%nat -> (List.length l <= List.length text - off)%nat.
Proof.
  intros Hr off g l g' S. induction S as [|off g m g1 res l g' S X Sc IH]; intros Ho; cbn [List.length]; [lia|].
  destruct (search_bounds _ _ _ Hr S) as [B1 B2]. rewrite skipn_length in B1. specialize (IH ltac:(lia)). lia.
Qed.
Theorem C12_rounds_bounded : forall e p g text ref r l g', In p all_parsers -> compile (p_pattern p) = Some r ->
  scan e p r (to_lower text) ref 0 g l g' -> (List.length l <= List.length text)%nat.
Proof.
  intros e p g text ref r l g' I C S. apply scan_rounds in S; [|apply (nonempty_all p I); exact C|lia].
  unfold to_lower in S. rewrite map_length in S. lia.
Qed.
Print Assumptions C12_rounds_bounded.

(** no pattern matches the empty string: every match consumes a character *)
Theorem C12_matches_nonempty : forall p r t m, In p all_parsers -> compile (p_pattern p) = Some r ->
  search true r t = Some m -> m_str m <> [].
Proof.
  intros p r t m I C S E. destruct (search_bounds _ _ _ (nonempty_all p I r C) S) as [_ B]. rewrite E in B. cbn in B. lia.
Qed.
Print Assumptions C12_matches_nonempty.

Example C12_case : sane strict_env /\ In iso all_parsers /\ List.length all_parsers = 13%nat.
Proof. split; [apply strict_sane|]. split; [|reflexivity]. cbn. tauto. Qed.

(** C13. *)
Theorem C13_results_in_order : forall e p g text ref rs, sane e -> In p all_parsers ->
  Z.of_nat (List.length text) < 2 ^ 32 -> x_res (execute e p g text ref) = Ret rs ->
  in_order (Z.of_nat (List.length text)) rs.
Proof.
  intros e p g text ref rs He I Hn H. destruct (locates_all p I) as [drop Hl].
  exact (execute_in_order e p g text ref rs drop He (nonempty_all p I) Hl Hn H).
Qed.
Print Assumptions C13_results_in_order.
Theorem C13_consecutive : forall e p g text ref rs l1 r1 r2 l2, sane e -> In p all_parsers ->
  Z.of_nat (List.length text) < 2 ^ 32 -> x_res (execute e p g text ref) = Ret rs -> rs = l1 ++ r1 :: r2 :: l2 ->
  0 <= getIndex r1 /\ getIndex r1 < getIndex r2 /\ getIndex r1 + textLength r1 <= getIndex r2 /\
  getIndex r2 + textLength r2 <= Z.of_nat (List.length text).
Proof.
  intros e p g text ref rs l1 r1 r2 l2 He I Hn H E. pose proof (C13_results_in_order e p g text ref rs He I Hn H) as O. clear H. subst rs.
  induction l1 as [|x l1 IH]; cbn [app] in O.
  - inversion O as [|? ? H1 H2 H3 O2]; subst. inversion O2 as [|? ? H4 H5 H6 O3]; subst.
    specialize (H3 r2 (or_introl eq_refl)). lia.
  - inversion O; subst. apply IH. assumption.
Qed.
Print Assumptions C13_consecutive.

Example C13_case : glance (run iso "from 2024-02-03 to 2024-2-30T10:11, 1999-12-31")
  = Ret [(5, "2024-02-03"); (19, "2024-2-30t10:11"); (36, "1999-12-31")].
Proof. vm_compute. reflexivity. Qed.

(** C14.  Exact for eleven of the thirteen parsers ... *)
Theorem C14_located : forall e p g text ref rs res, sane e -> In p all_parsers -> p <> month_name -> p <> time_expression ->
  Z.of_nat (List.length text) < 2 ^ 32 -> x_res (execute e p g text ref) = Ret rs -> In res rs ->
  firstn (Z.to_nat (textLength res)) (skipn (Z.to_nat (getIndex res)) (to_lower text)) = r_text res.
Proof.
  intros e p g text ref rs res He I N1 N2 Hn H Ir. unfold textLength. rewrite Nat2Z.id.
  exact (execute_located e p g text ref rs res He (nonempty_all p I) (locates_whole p I N1 N2) Hn H Ir).
Qed.
Print Assumptions C14_located.
(** ... false for month names and clock times preceded by a separator: the index is that of the separator *)
Theorem C14_located_refuted : exists text res,
  x_res (execute strict_env month_name gwords_init (bs text) noon2024) = Ret [res] /\
  firstn (Z.to_nat (textLength res)) (skipn (Z.to_nat (getIndex res)) (bs text)) = bs "e mar" /\ r_text res = bs "march".
Proof.
  exists "the march". eexists. split; [vm_compute; reflexivity|]. split; vm_compute; reflexivity.
Qed.
Print Assumptions C14_located_refuted.
Theorem C14_clock_refuted : exists text res,
  x_res (execute strict_env time_expression gwords_init (bs text) noon2024) = Ret [res] /\
  firstn (Z.to_nat (textLength res)) (skipn (Z.to_nat (getIndex res)) (bs text)) = bs " 5p" /\ r_text res = bs "5pm".
Proof.
  exists "call 5pm". eexists. split; [vm_compute; reflexivity|]. split; vm_compute; reflexivity.
Qed.
Print Assumptions C14_clock_refuted.
(** ... where the text is found behind the separator (the match's first group). *)
Theorem C14_located_partial : forall e p g text ref rs res, sane e -> p = month_name \/ p = time_expression ->
  Z.of_nat (List.length text) < 2 ^ 32 -> x_res (execute e p g text ref) = Ret rs -> In res rs ->
  exists r off m, compile (p_pattern p) = Some r /\ search true r (skipn off (to_lower text)) = Some m /\
  firstn (Z.to_nat (textLength res)) (skipn (Z.to_nat (getIndex res) + List.length (grp m 1)) (to_lower text)) = r_text res.
Proof.
  intros e p g text ref rs res He Hp Hn H Ir. unfold textLength. rewrite Nat2Z.id.
  assert (I : In p all_parsers) by (destruct Hp as [-> | ->]; cbn; tauto).
  apply (execute_located_drop e p g text ref rs res after_lead He (nonempty_all p I)); auto.
  destruct Hp as [-> | ->]; [exact locates_month_name|exact locates_time_expression].
Qed.
Print Assumptions C14_located_partial.

Example C14_case : glance (run deadline "Do it IN 5 Days, or in half an hour") = Ret [(6, "in 5 days"); (20, "in half an hour")].
Proof. vm_compute. reflexivity. Qed.

(** C15.  [same_letters]: equal up to ASCII letter case *)
Definition same_letters (t t' : bytes) : Prop :=
  Forall2 (fun c c' => c = c' \/ exists k, (k < 26)%N /\
    ((c = ascii_of_N (65 + k) /\ c' = ascii_of_N (97 + k)) \/ (c = ascii_of_N (97 + k) /\ c' = ascii_of_N (65 + k)))) t t'.
Lemma letter_lower k : (k < 26)%N -> lower (ascii_of_N (65 + k)) = lower (ascii_of_N (97 + k)).
Proof.
  intros H. assert (I : In k (map N.of_nat (seq 0 26))).
  { apply in_map_iff. exists (N.to_nat k). split; [apply N2Nat.id|]. apply in_seq. lia. }
  revert I. generalize k. apply Forall_forall. vm_compute. repeat constructor.
Qed.
Lemma same_letters_lower t t' : same_letters t t' -> to_lower t = to_lower t'.
Proof.
  induction 1 as [|c c' t t' Hc H IH]; [reflexivity|]. cbn [to_lower map]. f_equal; [|exact IH].
  destruct Hc as [->|(k & Hk & [[-> ->]|[-> ->]])]; [reflexivity| |symmetry]; apply letter_lower; exact Hk.
Qed.
Theorem C15_case_ignored : forall e p g t t' ref, same_letters t t' -> execute e p g t ref = execute e p g t' ref.
Proof. intros e p g t t' ref H. apply execute_case, same_letters_lower, H. Qed.
Print Assumptions C15_case_ignored.
Lemma lower_char c : (is_upper (lower c) = false) /\ (c = lower c \/ exists k, (k < 26)%N /\ c = ascii_of_N (65 + k) /\ lower c = ascii_of_N (97 + k)).
Proof.
  split.
  - apply negb_true_iff. revert c. apply forall_ascii. vm_compute. reflexivity.
  - destruct (is_upper c) eqn:U; [right|left; unfold lower; rewrite U; reflexivity].
    exists (code c - 65)%N. unfold lower. rewrite U. unfold is_upper, in_range in U. apply andb_true_iff in U as [U1 U2].
    apply N.leb_le in U1, U2. change (code "A") with 65%N in U1. change (code "Z") with 90%N in U2.
    split; [lia|]. split; [|f_equal; lia]. replace (65 + (code c - 65))%N with (code c) by lia. symmetry. apply ascii_N_embedding.
Qed.
Theorem C15_caller_string_lowered : forall e p g t ref,
  same_letters t (x_text (execute e p g t ref)) /\ Forall (fun c => is_upper c = false) (x_text (execute e p g t ref)).
Proof.
  intros e p g t ref. rewrite execute_text. induction t as [|c t [IH1 IH2]]; [split; constructor|].
  destruct (lower_char c) as [U D]. split; constructor; auto. destruct D as [D|(k & H & D)]; [left; exact D|right; exists k; split; [exact H|left; exact D]].
Qed.
Print Assumptions C15_caller_string_lowered.

Example C15_case : same_letters (bs "ToDay!") (bs "tOdaY!") /\ glance (run casual_date "ToDay!") = Ret [(0, "today")].
Proof.
  split; [|vm_compute; reflexivity]. cbn. unfold same_letters. repeat apply Forall2_cons; try apply Forall2_nil; try (left; reflexivity).
  all: right; first [exists 19%N; split; [reflexivity|]; first [left; split; reflexivity|right; split; reflexivity]
                    |exists 14%N; split; [reflexivity|]; first [left; split; reflexivity|right; split; reflexivity]
                    |exists 3%N; split; [reflexivity|]; first [left; split; reflexivity|right; split; reflexivity]
                    |exists 24%N; split; [reflexivity|]; first [left; split; reflexivity|right; split; reflexivity]].
Qed.

(** C16.  [scan] lists the successive matches: the leftmost match of what is left of the text, its extracted result, and so on after the
    match's end; execute() returns exactly (copies of) those that carry a date, in that order. *)
Theorem C16_visits_every_match : forall e p g text ref r, (forall n, ev_stale e n = Some n) -> In p all_parsers ->
  compile (p_pattern p) = Some r -> forall rs,
  x_res (execute e p g text ref) = Ret rs <->
  exists l, scan e p r (to_lower text) ref 0 g l (x_words (execute e p g text ref)) /\
            rs = map res_copy (filter hasPossibleDates (map snd l)).
Proof.
  intros e p g text ref r He I C rs. split.
  - intros H. pose proof (execute_scan e p g text ref rs (fun n => or_intror (He n)) (nonempty_all p I) H) as S. rewrite C in S. exact S.
  - intros (l & S & ->). rewrite (scan_execute e p g text ref r l _ He (nonempty_all p I) C S). reflexivity.
Qed.
Print Assumptions C16_visits_every_match.
(** "leftmost": no match of the pattern starts before the one found; and a match is found whenever one starts somewhere *)
Theorem C16_leftmost : forall r t m, search true r t = Some m ->
  exists pre post, t = pre ++ m_str m ++ post /\ m_pos m = List.length pre /\
    starts_match true r (lastc pre None) (m_str m ++ post) /\
    forall pre1 c pre2, pre = pre1 ++ c :: pre2 -> ~ starts_match true r (lastc pre1 None) (c :: pre2 ++ m_str m ++ post).
Proof.
  intros r t m S. destruct (search_from_sound _ _ _ _ _ _ S) as (pre & post & caps & E & P & _ & M & _ & _ & _ & N).
  exists pre, post. split; [exact E|]. split; [exact P|]. split; [eexists; exact M|exact N].
Qed.
Print Assumptions C16_leftmost.
Theorem C16_no_match_missed : forall r t pre suf, t = pre ++ suf -> starts_match true r (lastc pre None) suf ->
  exists m, search true r t = Some m /\ (m_pos m <= List.length pre)%nat.
Proof. intros r t pre suf. apply search_complete. Qed.
Print Assumptions C16_no_match_missed.

Example C16_case : (forall n, ev_stale env0 n = Some n) /\ In iso all_parsers /\ compile (p_pattern iso) = Some iso_re /\
  glance (run iso "2024-13-01 2024-12-01 2024-11-01") = Ret [(11, "2024-12-01"); (22, "2024-11-01")].
Proof. split; [reflexivity|]. split; [cbn; tauto|]. split; [exact iso_compile|]. vm_compute. reflexivity. Qed.

(** C17, false: the week parser's table lookups insert words that two other parsers then read. *)
Theorem C17_history_refuted : exists (calls : list call) (p : parser) (text : string),
  (forall c, In c calls -> In (fst (fst c)) all_parsers) /\ In p all_parsers /\
  match x_res (execute strict_env p (words_after strict_env calls) (bs text) noon2024) with Ret [r] => toDate r | _ => Ret [] end
    = Ret (bs "2024-Jan-02 00:00:00") /\
  match x_res (execute strict_env p gwords_init (bs text) noon2024) with Ret [r] => toDate r | _ => Ret [] end
    = Ret (bs "2024-Jan-03 00:00:00").
Proof.
  exists [(week, bs "next half week", noon2024)], deadline, "in half day".
  split; [intros c [<-|[]]; cbn; tauto|]. split; [cbn; tauto|]. split; vm_compute; reflexivity.
Qed.
Print Assumptions C17_history_refuted.
(** What holds: eleven parsers never depend on earlier calls ... *)
Theorem C17_history_free : forall e p ref text (calls : list call), In p all_parsers -> p <> deadline -> p <> relative ->
  (forall c, In c calls -> In (fst (fst c)) all_parsers) ->
  x_res (execute e p (words_after e calls) text ref) = x_res (execute e p gwords_init text ref).
Proof. exact history_free. Qed.
Print Assumptions C17_history_free.
(** ... and no parser does if no earlier text contained "half" or "few" (in any letter case). *)
Theorem C17_history_partial : forall e p ref text (calls : list call), In p all_parsers ->
  (forall c, In c calls -> In (fst (fst c)) all_parsers) ->
  (forall t, In t (texts_of calls) -> ~ occurs (bs "half") (to_lower t) /\ ~ occurs (bs "few") (to_lower t)) ->
  x_res (execute e p (words_after e calls) text ref) = x_res (execute e p gwords_init text ref).
Proof. exact history_clean. Qed.
Print Assumptions C17_history_partial.

Example C17_case : let calls := [(week, bs "next blue week", noon2024); (deadline, bs "in two days", noon2024)] in
  (forall c, In c calls -> In (fst (fst c)) all_parsers) /\ words_after env0 calls <> gwords_init.
Proof. split; [intros c [<-|[<-|[]]]; cbn; tauto|]. vm_compute. discriminate. Qed.
