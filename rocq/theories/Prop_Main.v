(** * The program (C54, C55, C67): time.cpp from the string to the printed line.
    Vocabulary: [alone e p text ref] (MainFacts.v) is what parser [p] returns when it is the only one to run in a fresh process;
    [is_sort f]: [f] returns a permutation of its argument with non-decreasing index, which is all that is known of std::sort here. *)
From Verif Require Import Base Regex RegexParse Calendar Components Utils Execute Spec View ParserSpec CalendarCycle CalendarFacts RegexFacts ResultFacts
  ExecuteFacts ParserRe MatchFacts FuelFacts LocateFacts HistoryFacts ParserFacts CasualFacts OverlapFacts MergeFacts Refiners Main MainFacts.
From Verif Require Import P_CasualDate P_CasualTime P_DayOfWeek P_Deadline P_ISO P_MonthName P_MiddleEndian
  P_TimeAgo P_TimeLater P_TimeExpression P_Holiday P_Week Prop_Execute Prop_Casual Prop_Refine.
From Coq Require Import ZifyBool ZifyNat Sorting.Sorted Sorting.Permutation.
Open Scope string_scope.
Open Scope list_scope.
Open Scope Z_scope.

Definition tab : bytes := [ascii_of_N 9].
Definition line (s : bytes) : bytes := bs "Date:" ++ tab ++ s.

(** C67.  The parsers do not influence one another inside the program: each returns what it returns alone, for every text
    (the word table is only written by the last one). *)
Theorem C67_parsers_independent : forall e text ref rs,
  snd (run_parsers e parsers gwords_init text ref []) = Ret rs <->
  exists rss, Forall2 (fun p l => alone e p text ref = Ret l) parsers rss /\ rs = List.concat rss.
Proof.
  intros e text ref rs. destruct steady_parsers as (ps & E & F). rewrite <- all_alone_ret. rewrite E.
  destruct (run_alone e week ref ps text [] F) as [E1 _]. rewrite E1. destruct (all_alone e (ps ++ [week]) text ref); cbn [bind app]; split; auto; discriminate.
Qed.
Print Assumptions C67_parsers_independent.
Theorem C67_text_nonempty : forall e p g text ref rs res, sane e -> In p all_parsers -> x_res (execute e p g text ref) = Ret rs -> In res rs ->
  r_text res <> [] /\ isEmpty res = false.
Proof. intros e p g text ref rs res He I X Ir. pose proof (result_text e p g text ref rs res He I X Ir). split; [assumption|apply filled_nonempty; assumption]. Qed.
Print Assumptions C67_text_nonempty.
Example C67_case : exists a b, alone env0 deadline (bs "in 5 days") noon2024 = Ret [a] /\ alone env0 time_expression (bs "in 5 days") noon2024 = Ret [b] /\
  snd (run_parsers env0 parsers gwords_init (bs "in 5 days") noon2024 []) = Ret [a; b].
Proof. do 2 eexists. split; [vm_compute; reflexivity|]. split; [vm_compute; reflexivity|]. vm_compute. reflexivity. Qed.

(** C54.  "Invalid date" is printed exactly when no parser recognises anything ... *)
Theorem C54_invalid_iff_nothing : forall e sortf text ref, sane e -> is_sort sortf ->
  main e sortf gwords_init text ref = Ret invalid_message <-> forall p, In p parsers -> alone e p text ref = Ret [].
Proof.
  intros e sortf text ref He Hs. rewrite main_alone. split.
  - intros H. apply bind_ret in H as (rs & E & H). apply bind_ret in H as (out & E2 & H).
    assert (rs = []) as ->.
    { destruct rs as [|r rs]; [reflexivity|]. exfalso. assert (Nn : sortf (r :: rs) <> []).
      { intros Es. destruct (Hs (r :: rs)) as [P _]. rewrite Es in P. apply Permutation_sym, Permutation_nil in P. discriminate. }
      pose proof (refiners_nonempty _ _ _ (proj2 (Hs (r :: rs))) (sorted_nonempty _ _ _ _ _ He Hs E) Nn E2) as No.
      destruct out as [|x out]; [congruence|]. cbn [show] in H. apply bind_ret in H as (s & _ & H). apply ret_inv in H. discriminate. }
    intros p Ip. apply all_alone_ret in E as (rss & F & E). clear - F E Ip.
    induction F as [|q l ps rss Hq F IH]; [contradiction|]. cbn [List.concat] in E. symmetry in E. apply app_eq_nil in E as [-> E].
    destruct Ip as [<-|Ip]; auto.
  - intros H. assert (E : all_alone e parsers text ref = Ret []).
    { revert H. generalize parsers. induction l as [|p l IH]; intros H; [reflexivity|]. cbn [all_alone]. rewrite (H p (or_introl eq_refl)). cbn [bind].
      rewrite IH by (intros q Iq; apply H; right; exact Iq). reflexivity. }
    rewrite E. cbn [bind]. rewrite (sort_nil _ Hs), refiners_nil. reflexivity.
Qed.
Print Assumptions C54_invalid_iff_nothing.
(** ... and otherwise the line is the rendering of the first refined result. *)
Theorem C54_prints_first : forall e sortf text ref out, sane e -> is_sort sortf -> main e sortf gwords_init text ref = Ret out -> out <> invalid_message ->
  exists rs r more s, (forall x, In x rs <-> exists p l, In p parsers /\ alone e p text ref = Ret l /\ In x l) /\
    run_refiners (sortf rs) (to_lower text) = Ret (r :: more) /\ toDate r = Ret s /\ out = line s.
Proof.
  intros e sortf text ref out He Hs H N. rewrite main_alone in H. apply bind_ret in H as (rs & E & H). apply bind_ret in H as (o & E2 & H).
  destruct o as [|r more]; [apply ret_inv in H; congruence|]. cbn [show] in H. apply bind_ret in H as (s & Es & H). apply ret_inv in H.
  exists rs, r, more, s. split; [intros x; apply (all_alone_in _ _ _ _ _ E)|]. auto.
Qed.
Print Assumptions C54_prints_first.
(** A result that spans the whole text, all others being shorter, is what is printed, whatever else was recognised inside it. *)
Theorem C54_whole_text_wins : forall e sortf text ref rs r, sane e -> is_sort sortf -> Z.of_nat (List.length text) < 2 ^ 32 ->
  snd (run_parsers e parsers gwords_init text ref []) = Ret rs -> In r rs -> getIndex r = 0 -> textLength r = Z.of_nat (List.length text) ->
  (forall r', In r' rs -> r' = r \/ textLength r' < textLength r) ->
  main e sortf gwords_init text ref = (s <- toDate r ;; Ret (line s)).
Proof.
  intros e sortf text ref rs r He Hs Hn H. apply main_whole; auto. apply C67_parsers_independent in H. apply all_alone_ret. exact H.
Qed.
Print Assumptions C54_whole_text_wins.
(** A lone result is printed as it is, unless it is a clock time followed by a time zone. *)
Theorem C54_lone_result : forall e sortf text ref r, is_sort sortf ->
  snd (run_parsers e parsers gwords_init text ref []) = Ret [r] -> ~ (exists abbr k, zoned (to_lower text) r abbr k) ->
  main e sortf gwords_init text ref = (s <- toDate r ;; Ret (line s)).
Proof.
  intros e sortf text ref r Hs H. apply main_single; auto. apply C67_parsers_independent in H. apply all_alone_ret. exact H.
Qed.
Print Assumptions C54_lone_result.

(** libstdc++'s insertion sort for short lists is such a sort *)
Lemma insert_sorted r l : by_index l -> by_index (insert_res r l) /\ Permutation (r :: l) (insert_res r l) /\
  forall z, starts z <= starts r -> Forall (fun b => starts z <= starts b) l -> Forall (fun b => starts z <= starts b) (insert_res r l).
Proof.
  induction l as [|x l IH]; intros B; cbn [insert_res].
  - split; [repeat constructor|]. split; [reflexivity|]. intros z Hz _. repeat constructor. exact Hz.
  - destruct (IH (by_index_tl _ _ B)) as (B1 & P1 & F1). pose proof (by_index_all _ _ B) as A.
    destruct (getIndex x <=? getIndex r) eqn:E.
    + split; [apply by_index_cons; [exact B1|apply F1; [unfold starts; lia|exact A]]|]. split.
      * rewrite perm_swap. constructor. exact P1.
      * intros z Hz F. inversion F; subst. constructor; [assumption|apply F1; assumption].
    + split; [apply by_index_cons; [exact B|constructor; [unfold starts; lia|]; eapply Forall_impl; [|exact A]; cbn; unfold starts; intros; lia]|].
      split; [reflexivity|]. intros z Hz F. constructor; assumption.
Qed.
Lemma stable_is_sort : is_sort sort_stable.
Proof.
  intros l. unfold sort_stable. cut (forall l acc, by_index acc -> Permutation (l ++ acc) (fold_left (fun acc r => insert_res r acc) l acc) /\
    by_index (fold_left (fun acc r => insert_res r acc) l acc)).
  { intros H. destruct (H l [] ltac:(constructor)) as [P B]. rewrite app_nil_r in P. auto. }
  clear l. induction l as [|r l IH]; intros acc B; cbn [fold_left app]; [split; [reflexivity|exact B]|].
  destruct (insert_sorted r acc B) as (B1 & P1 & _). destruct (IH _ B1) as [P2 B2]. split; [|exact B2].
  rewrite <- P2. rewrite Permutation_middle. apply Permutation_app_head. exact P1.
Qed.
(** another one, which puts a later result before an earlier one with the same index *)
Fixpoint insert_before (r : result) (l : list result) : list result :=
  match l with [] => [r] | x :: l' => if getIndex x <? getIndex r then x :: insert_before r l' else r :: l end.
Definition sort_other (l : list result) : list result := fold_left (fun acc r => insert_before r acc) l [].
Lemma insert_before_sorted r l : by_index l -> by_index (insert_before r l) /\ Permutation (r :: l) (insert_before r l) /\
  forall z, starts z <= starts r -> Forall (fun b => starts z <= starts b) l -> Forall (fun b => starts z <= starts b) (insert_before r l).
Proof.
  induction l as [|x l IH]; intros B; cbn [insert_before].
  - split; [repeat constructor|]. split; [reflexivity|]. intros z Hz _. repeat constructor. exact Hz.
  - destruct (IH (by_index_tl _ _ B)) as (B1 & P1 & F1). pose proof (by_index_all _ _ B) as A.
    destruct (getIndex x <? getIndex r) eqn:E.
    + split; [apply by_index_cons; [exact B1|apply F1; [unfold starts; lia|exact A]]|]. split.
      * rewrite perm_swap. constructor. exact P1.
      * intros z Hz F. inversion F; subst. constructor; [assumption|apply F1; assumption].
    + split; [apply by_index_cons; [exact B|constructor; [unfold starts; lia|]; eapply Forall_impl; [|exact A]; cbn; unfold starts; intros; lia]|].
      split; [reflexivity|]. intros z Hz F. constructor; assumption.
Qed.
Lemma other_is_sort : is_sort sort_other.
Proof.
  intros l. unfold sort_other. cut (forall l acc, by_index acc -> Permutation (l ++ acc) (fold_left (fun acc r => insert_before r acc) l acc) /\
    by_index (fold_left (fun acc r => insert_before r acc) l acc)).
  { intros H. destruct (H l [] ltac:(constructor)) as [P B]. rewrite app_nil_r in P. auto. }
  clear l. induction l as [|r l IH]; intros acc B; cbn [fold_left app]; [split; [reflexivity|exact B]|].
  destruct (insert_before_sorted r acc B) as (B1 & P1 & _). destruct (IH _ B1) as [P2 B2]. split; [|exact B2].
  rewrite <- P2. rewrite Permutation_middle. apply Permutation_app_head. exact P1.
Qed.

Example C54_case : is_sort sort_stable /\ sane env0 /\
  main env0 sort_stable gwords_init (bs "Sunday, monday") noon2024 = Ret invalid_message /\
  main env0 sort_stable gwords_init (bs "call me at 5pm EST") noon2024 = Ret (line (bs "2024-Jan-02 12:00:00")) /\
  main env0 sort_stable gwords_init (bs "In 5 Days") noon2024 = Ret (line (bs "2024-Jan-07 00:00:00")).
Proof.
  split; [exact stable_is_sort|]. split; [intros n; right; reflexivity|]. split; [vm_compute; reflexivity|]. split; vm_compute; reflexivity.
Qed.

(** ** Phrases, for every reference moment and every sort *)
Ltac quiet := apply silentb_ok; vm_compute; reflexivity.
Lemma casual_alone e text w t us m res : to_lower text = w -> search true casual_date_re w = Some m -> m_pos m = 0%nat -> m_str m = w ->
  real_instant t us -> casual_date_extract e gwords_init w m (ptime_of t us) 0 = Ret res -> low w ->
  alone e casual_date text (ptime_of t us) = Ret [res_copy res].
Proof.
  intros E S P0 Ps H X L. unfold alone.
  rewrite (execute_whole e casual_date gwords_init text (ptime_of t us) casual_date_re m gwords_init res); try rewrite E; try assumption; try reflexivity; try exact casual_date_compile.
  - apply Nat.leb_le. vm_compute. reflexivity.
  - cbn [p_extract casual_date]. unfold pure_extract. rewrite X. reflexivity.
  - destruct (casual_date_extracted _ _ _ _ _ _ _ _ H L S X) as (M & _). eapply casual_date_possible; eauto.
Qed.
Definition the_others (p : parser) : list parser := filter (fun q => negb (beq (p_pattern q) (p_pattern p))) parsers.
Lemma casual_phrase e sortf text w t us m res mo : is_sort sortf -> to_lower text = w -> low w -> Forall (silent w) (the_others casual_date) ->
  search true casual_date_re w = Some m -> m_pos m = 0%nat -> m_str m = w ->
  real_instant t us -> casual_date_extract e gwords_init w m (ptime_of t us) 0 = Ret res ->
  denotes (r_start res) mo -> real_moment mo ->
  main e sortf gwords_init text (ptime_of t us) = Ret (line (bs (written mo))).
Proof.
  intros Hs E L F S P0 Ps H X D R.
  assert (Lw : to_lower text = to_lower w) by (rewrite E; symmetry; apply low_lower; exact L).
  assert (F' : Forall (silent text) (the_others casual_date)) by (eapply Forall_impl; [|exact F]; intros p; apply silent_lower; symmetry; exact Lw).
  destruct (casual_date_extracted _ _ _ _ _ _ _ _ H L S X) as (_ & T & I & En & Tg).
  rewrite (main_single e sortf text _ (res_copy res) Hs).
  - unfold shown. rewrite (toDate_start (res_copy res) mo); [reflexivity|exact D|exact R| |exact En].
    rewrite tag_is_tags. cbn [r_tags res_copy]. 
    assert (r_tags res TExtractTZ = None) as ->; [|reflexivity].
    clear - X. unfold casual_date_extract in X. apply bind_ret in X as ([tmp r0] & X0 & X). 
    assert (T0 : r_tags r0 = r_tags (res_new (ptime_of t us) 0 (grp m 0))).
    { revert X0. rewrite with_last_night. repeat match goal with |- context [if ?b then _ else _] => destruct b | |- context [match search ?a ?b ?c with _ => _ end] => destruct (search a b c) end;
      intros X0; repeat (match type of X0 with bind _ _ = _ => apply bind_ret in X0 as (? & _ & X0) end); apply ret_inv in X0; apply (f_equal snd) in X0; cbn [snd] in X0; subst r0; reflexivity. }
    repeat (apply bind_ret in X as (? & _ & X)). apply ret_inv in X. subst res. unfold setTag. cbn [r_tags on_start with_start]. rewrite T0. reflexivity.
  - change parsers with ([casual_time; deadline; day_of_week] ++ casual_date :: [middle_endian; time_later; month_name; time_ago; time_expression; iso; holiday; week]).
    rewrite lone_parser; [apply (casual_alone e text w t us m res); assumption|exact F'].
  - apply whole_no_zone. rewrite E. change (getIndex (res_copy res)) with (r_index res). change (textLength (res_copy res)) with (textLength res).
    rewrite I. unfold textLength. rewrite T, Ps. reflexivity.
Qed.


Ltac known := repeat (match goal with
  | |- context [starts_with ?a ?b] => let v := eval vm_compute in (starts_with a b) in change (starts_with a b) with v
  | |- context [search true last_night_re ?b] => let v := eval vm_compute in (search true last_night_re b) in change (search true last_night_re b) with v
  | |- context [beq ?a ?b] => let v := eval vm_compute in (beq a b) in change (beq a b) with v
  end; cbn [orb]).
Ltac phrase w := intros; match goal with
  | Hs : is_sort _, E : to_lower _ = bs w, H : real_instant _ _ |- _ =>
    eapply (casual_phrase _ _ _ (bs w) _ _ _ _ _ Hs E); [unfold low; repeat constructor|quiet|vm_compute; reflexivity|vm_compute; reflexivity|vm_compute; reflexivity|exact H| | | ];
    [unfold casual_date_extract; rewrite with_last_night; unfold grp; cbn [m_str]; known; rewrite ?pt_hours_of, ?pt_minutes_of, ?pt_seconds_of by exact H; cbn [bind]| |]
  end.
Theorem C54_today : forall e sortf text t us, is_sort sortf -> real_instant t us -> to_lower text = bs "today" ->
  main e sortf gwords_init text (ptime_of t us) = Ret (line (bs (written (Moment (mdate t) 0 0 0)))).
Proof.
  phrase "today".
  - rewrite pt_date_of by eassumption. cbn [bind]. rewrite get_date by apply H0. reflexivity.
  - repeat split.
  - destruct H0 as [[R _] _]. repeat split; try apply R; cbn; lia.
Qed.
Print Assumptions C54_today.
Theorem C54_now : forall e sortf text t us, is_sort sortf -> real_instant t us -> to_lower text = bs "now" ->
  main e sortf gwords_init text (ptime_of t us) = Ret (line (bs (written t))).
Proof.
  phrase "now".
  - rewrite pt_date_of by eassumption. cbn [bind]. rewrite get_date by apply H0. reflexivity.
  - repeat split.
  - apply H0.
Qed.
Print Assumptions C54_now.
Theorem C54_tonight : forall e sortf text t us, is_sort sortf -> real_instant t us -> to_lower text = bs "tonight" ->
  main e sortf gwords_init text (ptime_of t us) = Ret (line (bs (written (Moment (mdate t) 22 0 0)))).
Proof.
  phrase "tonight".
  - rewrite pt_date_of by eassumption. cbn [bind]. rewrite get_date by apply H0. reflexivity.
  - repeat split.
  - destruct H0 as [[R _] _]. repeat split; try apply R; cbn; lia.
Qed.
Print Assumptions C54_tonight.
(** from one o'clock on, "tomorrow" is midnight of the next calendar day; in the first hour it is the reference date (see C19) *)
Theorem C54_tomorrow : forall e sortf text t us c, is_sort sortf -> real_instant t us -> to_lower text = bs "tomorrow" \/ to_lower text = bs "tmr" ->
  real_date c -> c = (if 1 <=? mhour t then next_day (mdate t) else mdate t) ->
  main e sortf gwords_init text (ptime_of t us) = Ret (line (bs (written (Moment c 0 0 0)))).
Proof.
  assert (P : forall t us c, real_instant t us -> real_date c -> c = (if 1 <=? mhour t then next_day (mdate t) else mdate t) ->
    pt_date (if 0 <? mhour t then ptime_of t us + DAY else ptime_of t us) = Ret (dn_of c)).
  { intros t us c H R E. replace (0 <? mhour t) with (1 <=? mhour t) by lia. destruct (1 <=? mhour t).
    - change DAY with (1 * DAY). apply pt_date_shift; auto. split; [apply R|]. rewrite E, rd_next_day by apply H. reflexivity.
    - subst c. apply pt_date_of. exact H. }
  intros e sortf text t us c Hs H [E|E] R Ec.
  - phrase "tomorrow".
    + match goal with |- context [pt_date ?x] => replace (pt_date x) with (Ret (dn_of c)) by (symmetry; exact (P t us c H R Ec)) end. cbn [bind]. rewrite get_date by exact R. reflexivity.
    + repeat split.
    + repeat split; try apply R; cbn; lia.
  - phrase "tmr".
    + match goal with |- context [pt_date ?x] => replace (pt_date x) with (Ret (dn_of c)) by (symmetry; exact (P t us c H R Ec)) end. cbn [bind]. rewrite get_date by exact R. reflexivity.
    + repeat split.
    + repeat split; try apply R; cbn; lia.
Qed.
Print Assumptions C54_tomorrow.
(** "yesterday" is the day before, at the hour of the reference *)
Theorem C54_yesterday : forall e sortf text t us c, is_sort sortf -> real_instant t us -> to_lower text = bs "yesterday" ->
  real_date c -> next_day c = mdate t ->
  main e sortf gwords_init text (ptime_of t us) = Ret (line (bs (written (Moment c (mhour t) 0 0)))).
Proof.
  intros e sortf text t us c Hs H E R Ec. phrase "yesterday".
  - change (ptime_of t us - DAY) with (ptime_of t us + (-1) * DAY). rewrite (pt_date_shift t us (-1) c H R).
    + cbn [bind]. rewrite get_date by exact R. reflexivity.
    + split; [apply R|]. rewrite <- Ec, rd_next_day by apply R. lia.
  - repeat split.
  - destruct H as [[_ [Hh _]] _]. repeat split; try apply R; cbn; try lia; apply Hh.
Qed.
Print Assumptions C54_yesterday.

Example C54_phrases_case : exists c, let t := Moment (Cal 2024 3 1) 0 30 15 in real_instant t 7 /\ to_lower (bs "YesterDay") = bs "yesterday" /\
  real_date c /\ next_day c = mdate t /\ written (Moment c (mhour t) 0 0) = "2024-Feb-29 00:00:00".
Proof. exists (Cal 2024 2 29). split; [inst|]. split; [reflexivity|]. split; [inst|]. split; vm_compute; reflexivity. Qed.

(** C55, false: "noon" is recognised by two parsers at the same place with the same length; which one is printed depends on the sort. *)
Theorem C55_determined_refuted : exists text, exists f f', is_sort f /\ is_sort f' /\
  main strict_env f gwords_init (bs text) (ptime_of (Moment (Cal 2024 1 2) 12 34 56) 0) = Ret (line (bs "2024-Jan-02 12:34:00")) /\
  main strict_env f' gwords_init (bs text) (ptime_of (Moment (Cal 2024 1 2) 12 34 56) 0) = Ret (line (bs "2024-Jan-02 12:00:00")).
Proof.
  exists "noon", sort_stable, sort_other. split; [exact stable_is_sort|]. split; [exact other_is_sort|]. split; vm_compute; reflexivity.
Qed.
Print Assumptions C55_determined_refuted.
(** What holds: if no two results start at the same place, every sort gives the same output ... *)
Theorem C55_determined_partial : forall e f f' text ref, is_sort f -> is_sort f' ->
  (forall rs, snd (run_parsers e parsers gwords_init text ref []) = Ret rs -> NoDup (map getIndex rs)) ->
  main e f gwords_init text ref = main e f' gwords_init text ref.
Proof.
  intros e f f' text ref Hf Hf' N. rewrite !main_alone. destruct (all_alone e parsers text ref) as [rs| | | |] eqn:E; cbn [bind]; try reflexivity.
  assert (Nd : NoDup (map getIndex rs)) by (apply N; apply C67_parsers_independent; apply all_alone_ret; exact E).
  destruct (Hf rs) as [P B], (Hf' rs) as [P' B']. rewrite (sorted_unique (f rs) (f' rs)); auto.
  - rewrite <- P. exact P'.
  - eapply Permutation_NoDup; [apply Permutation_map; exact P|exact Nd].
Qed.
Print Assumptions C55_determined_partial.
(** ... and so it is when one result spans the whole text and the others are shorter (e.g. "2012-08-10", where a clock time "2012-08" starts at the
    same place). *)
Theorem C55_whole_text : forall e f f' text ref rs r, sane e -> is_sort f -> is_sort f' -> Z.of_nat (List.length text) < 2 ^ 32 ->
  snd (run_parsers e parsers gwords_init text ref []) = Ret rs -> In r rs -> getIndex r = 0 -> textLength r = Z.of_nat (List.length text) ->
  (forall r', In r' rs -> r' = r \/ textLength r' < textLength r) ->
  main e f gwords_init text ref = main e f' gwords_init text ref.
Proof. intros. rewrite (C54_whole_text_wins e f text ref rs r), (C54_whole_text_wins e f' text ref rs r); auto. Qed.
Print Assumptions C55_whole_text.
Example C55_case : exists a b, snd (run_parsers env0 parsers gwords_init (bs "2012-08-10") noon2024 []) = Ret [a; b] /\
  getIndex a = 0 /\ getIndex b = 0 /\ textLength a = 7 /\ textLength b = 10 /\
  main env0 sort_other gwords_init (bs "2012-08-10") noon2024 = Ret (line (bs "2012-Aug-10 00:00:00")).
Proof. do 2 eexists. split; [vm_compute; reflexivity|]. do 4 (split; [vm_compute; reflexivity|]). vm_compute. reflexivity. Qed.
