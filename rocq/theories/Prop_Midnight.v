(** * Deadlines past midnight, printed (C131, C132) *)
From Verif Require Import Base Regex RegexParse Calendar Components Utils Execute Spec View ParserSpec PhraseSpec WeekSpec MiddleSpec CalendarCycle CalendarFacts RegexFacts ResultFacts
  ExecuteFacts ParserRe MatchFacts LocateFacts HistoryFacts ParserFacts CasualFacts DeadlineFacts HolidayFacts ISOShape ISOFacts ZoneFacts MergeFacts FoundFacts OverlapFacts P_CasualDate P_CasualTime P_ISO P_Deadline P_Week P_Holiday Prop_Casual Prop_Deadline Prop_Found Refiners Main Prop_Execute Prop_Refine Prop_Tags
  MainFacts Prop_Main Prop_Answers Prop_Format Prop_Sentence.
From Coq Require Import ZifyBool ZifyNat ZifyN.
Open Scope string_scope.
Open Scope list_scope.
Open Scope Z_scope.

(** every result starts within the phrase [w], and those of the other parsers are shorter than it: the condition of C92 *)
Definition nothing_else (e : env) (text : bytes) (ref : ptime) (p : parser) (pre w : bytes) : Prop :=
  forall q, In q parsers -> exists l, x_res (execute e q gwords_init text ref) = Ret l /\ forall r, In r l ->
     Z.of_nat (List.length pre) <= getIndex r < Z.of_nat (List.length pre) + Z.of_nat (List.length w) /\ (q = p \/ textLength r < Z.of_nat (List.length w)).
Lemma single_main e sortf text t us p pre w mo : sane e -> is_sort sortf -> Z.of_nat (List.length text) < 2 ^ 32 -> w <> [] -> In p [casual_date; casual_time; deadline; iso; holiday; week] -> real_moment mo ->
  (forall l, alone e p text (ptime_of t us) = Ret l -> exists res, In res l /\ stands res pre w /\ has_end res = false /\ denotes (r_start res) mo) ->
  nothing_else e text (ptime_of t us) p pre w -> main e sortf gwords_init text (ptime_of t us) = Ret (line (bs (written mo))).
Proof.
  intros He Hs Hn Nw Ip Rm Fd Al. pose proof (plain_in p Ip) as Ip'. destruct (Al p Ip') as (l & El & Bl). destruct (Fd l El) as (res & I & (Ix & Tx) & En & D).
  assert (A : exists rs, all_alone e parsers text (ptime_of t us) = Ret rs).
  { assert (Q : exists rss, Forall2 (fun p l => alone e p text (ptime_of t us) = Ret l) parsers rss).
    { revert Al. clear. unfold nothing_else. generalize parsers as ps. induction ps as [|q ps IH]; intros Al; [exists []; constructor|]. destruct (Al q (or_introl eq_refl)) as (l & El & _).
      destruct IH as [rss F]; [intros q' I'; apply Al; right; exact I'|]. exists (l :: rss). constructor; assumption. }
    destruct Q as [rss F]. exists (List.concat rss). apply all_alone_ret. eauto. }
  destruct A as [rs A].
  assert (Ir : In res rs) by (apply (all_alone_in _ _ _ _ _ A); exists p, l; auto).
  assert (Lr : Z.of_nat (List.length w) <= textLength res) by (unfold textLength; rewrite Tx; lia).
  rewrite (main_dominant e sortf text (ptime_of t us) rs res He Hs A Ir (plain_untimed e p text _ l res He Ip El I)).
  - unfold shown. rewrite (toDate_start res mo D Rm); [reflexivity| |exact En].
    apply (C73_no_refiner_tag e p gwords_init text (ptime_of t us) l res TExtractTZ He (in_all p Ip') El I). left. reflexivity.
  - intros r' Ir'. apply (all_alone_in _ _ _ _ _ A) in Ir' as (q & lq & Iq & Eq & Il). destruct (Al q Iq) as (l' & El' & Bq). unfold alone in *. rewrite El' in Eq. apply RelativeFacts.ret_inj in Eq. subst l'.
    destruct (Bq r' Il) as [B1 B2]. rewrite Ix.
    destruct B2 as [->|Q]; [left|right; lia]. rewrite El in El'. apply RelativeFacts.ret_inj in El'. subst lq.
    pose proof (result_text _ _ _ _ _ _ _ He (in_all p Ip') El I) as T1. pose proof (result_text _ _ _ _ _ _ _ He (in_all p Ip') El Il) as T2.
    apply (in_order_unique (Z.of_nat (List.length text)) l); auto.
    + apply (C13_results_in_order _ _ _ _ _ _ He (in_all p Ip') Hn El).
    + unfold textLength. destruct (r_text res); [congruence|cbn [List.length]; lia].
    + unfold textLength. destruct (r_text r'); [congruence|cbn [List.length]; lia].
    + rewrite Ix. lia.
Qed.
Lemma deadline_words w n u : deadline_phrase w n u -> w <> [].
Proof. intros (kw & s1 & s2 & -> & [-> | ->] & _); discriminate. Qed.

(** C131.  A text contains "in" or "within" N hours, minutes or seconds (N at most 2^24, or half an hour etc.), and nothing else is recognised.  Let [t'] be the moment that much after the reference.  Then the program prints
    the clock time of [t'] on the date of the reference - the wrong date whenever midnight lies between. *)
Theorem C131_deadline_keeps_the_date : forall e sortf text t us pre w post n v u q secs t', sane e -> is_sort sortf -> real_instant t us -> Z.of_nat (List.length text) < 2 ^ 32 ->
  to_lower text = pre ++ w ++ post -> separate pre post -> deadline_phrase w n (bs v) -> spells n q -> In (v, u) full_units -> u <> UDay -> deadline_seconds q u = Some secs -> (forall k, q = Whole k -> k <= 2 ^ 24) ->
  seconds_after secs t t' -> real_moment t' -> nothing_else e text (ptime_of t us) deadline pre w ->
  main e sortf gwords_init text (ptime_of t us) = Ret (line (bs (written (Moment (mdate t) (mhour t') (mmin t') (msec t'))))).
Proof.
  intros e sortf text t us pre w post n v u q secs t' He Hs H Hn E Sp D1 D2 D3 D4 D5 D6 D7 Rm Al.
  apply (single_main e sortf text t us deadline pre w); auto; [exact (deadline_words _ _ _ D1)|cbn; tauto|split; [exact (proj1 (proj1 H))|exact (proj2 Rm)]|].
  intros l El. assert (Iu : In (bs v) (map bs all_units)) by (apply in_map; apply in_or_app; left; apply (in_map fst) in D3; exact D3).
  assert (Hm : forall k, q = Whole k -> k <= INT_MAX) by (intros k Ek; specialize (D6 k Ek); unfold INT_MAX; lia).
  destruct (C86_deadlines_stand e text t us pre w post n (bs v) q l He H Hn D1 D2 Iu Hm E Sp El) as (res & I & St & En & U & M). exists res. split; [exact I|]. split; [exact St|]. split; [exact En|]. specialize (M v u eq_refl D3).
  destruct (clock_reached _ _ _ _ _ _ D4 D5 D6 D7 M) as (D & C1 & C2 & C3). apply denotes_implied; [exact D|..]; eauto using implied_value.
Qed.
Print Assumptions C131_deadline_keeps_the_date.

(** C132.  A text contains "in half a day" or the like and nothing else is recognised: the program prints the moment twelve hours after the reference - on the next day when midnight is crossed - without its seconds. *)
Theorem C132_half_a_day_crosses_midnight : forall e sortf text t us pre w post n v t', sane e -> is_sort sortf -> real_instant t us -> Z.of_nat (List.length text) < 2 ^ 32 ->
  to_lower text = pre ++ w ++ post -> separate pre post -> deadline_phrase w n (bs v) -> spells n Half -> In (v, UDay) full_units -> seconds_after (12 * 3600) t t' -> real_moment t' ->
  nothing_else e text (ptime_of t us) deadline pre w ->
  main e sortf gwords_init text (ptime_of t us) = Ret (line (bs (written (Moment (mdate t') (mhour t') (mmin t') 0)))).
Proof.
  intros e sortf text t us pre w post n v t' He Hs H Hn E Sp D1 D2 D3 Sa Rm Al.
  apply (single_main e sortf text t us deadline pre w); auto; [exact (deadline_words _ _ _ D1)|cbn; tauto|destruct Rm as (R1 & R2 & R3 & R4); repeat (split; [assumption|]); cbn; lia|].
  intros l El. assert (Iu : In (bs v) (map bs all_units)) by (apply in_map; apply in_or_app; left; apply (in_map fst) in D3; exact D3).
  destruct (C86_deadlines_stand e text t us pre w post n (bs v) Half l He H Hn D1 D2 Iu ltac:(discriminate) E Sp El) as (res & I & St & En & U & M). exists res. split; [exact I|]. split; [exact St|]. split; [exact En|]. specialize (M v UDay eq_refl D3).
  destruct M as (t2 & R2 & S2 & D & Hh & Hm & U2).
  assert (t2 = t').
  { destruct S2 as (V2 & A1 & A2 & A3 & E2), Sa as (V & B1 & B2 & B3 & E1). unfold sec_count in *.
    clear - V2 A1 A2 A3 E2 V B1 B2 B3 E1. assert (rd (mdate t2) = rd (mdate t')) by lia. assert (mdate t2 = mdate t') by (apply rd_inj; assumption).
    destruct t2 as [d2 h2 m2 s2], t' as [d3 h3 m3 s3]. cbn [Spec.mdate Spec.mhour Spec.mmin Spec.msec] in *. subst d3. f_equal; lia. }
  subst t2. apply denotes_implied; [exact D|exact (implied_value _ _ _ Hh)|exact (implied_value _ _ _ Hm)|apply (zero_of _ _ _ U2); cbn; tauto].
Qed.
Print Assumptions C132_half_a_day_crosses_midnight.

(** ** Cases *)
Lemma inside_only_ok e text ref p pre w : (forall q, In q parsers -> beq (p_pattern q) (p_pattern p) = true -> q = p) -> inside_only e text ref p pre w = true -> nothing_else e text ref p pre w.
Proof.
  intros Same X q Iq. unfold inside_only in X. rewrite forallb_forall in X. specialize (X q Iq). unfold alone in X. destruct (x_res (execute e q gwords_init text ref)) as [l| | | |] eqn:El; try discriminate X.
  exists l. split; [reflexivity|]. intros r Ir. rewrite forallb_forall in X. specialize (X r Ir). apply andb_true_iff in X as [X X3]. apply andb_true_iff in X as [X1 X2].
  split; [lia|]. apply orb_true_iff in X3 as [X3|X3]; [left; exact (Same q Iq X3)|right; lia].
Qed.
Lemma same_deadline q : In q parsers -> beq (p_pattern q) (p_pattern deadline) = true -> q = deadline.
Proof. intros I E. cbn in I. repeat (destruct I as [<-|I]; [first [reflexivity|vm_compute in E; discriminate E]|]). contradiction. Qed.
Example C131_case : let t := Moment (Cal 2024 2 27) 9 15 0 in let text := bs "Call in 20 hours, ok" in
  real_instant t 3 /\ to_lower text = bs "call " ++ bs "in 20 hours" ++ bs ", ok" /\ separate (bs "call ") (bs ", ok") /\ deadline_phrase (bs "in 20 hours") (bs "20") (bs "hours") /\ spells (bs "20") (Whole 20) /\
  In ("hours", UHour) full_units /\ deadline_seconds (Whole 20) UHour = Some 72000 /\ seconds_after 72000 t (Moment (Cal 2024 2 28) 5 15 0) /\ real_moment (Moment (Cal 2024 2 28) 5 15 0) /\
  nothing_else strict_env text (ptime_of t 3) deadline (bs "call ") (bs "in 20 hours") /\
  main strict_env sort_stable gwords_init text (ptime_of t 3) = Ret (line (bs "2024-Feb-27 05:15:00")).
Proof.
  cbv zeta. split; [inst|]. split; [reflexivity|]. split; [apply separate_dec; reflexivity|].
  split; [exists (bs "in"), (bs " "), (bs " "); split; [reflexivity|]; split; [auto|]; repeat split; try discriminate; repeat constructor|].
  split; [apply (ParserSpec.sp_digits (bs "20")); [repeat constructor|discriminate]|]. split; [cbn; tauto|]. split; [reflexivity|]. split; [concrete|]. split; [inst|].
  split; [apply inside_only_ok; [exact same_deadline|vm_compute; reflexivity]|vm_compute; reflexivity].
Qed.
Example C132_case : let t := Moment (Cal 2024 2 27) 21 15 7 in let text := bs "Call in half a day, ok" in
  real_instant t 3 /\ to_lower text = bs "call " ++ bs "in half a day" ++ bs ", ok" /\ separate (bs "call ") (bs ", ok") /\ deadline_phrase (bs "in half a day") (bs "half a") (bs "day") /\ spells (bs "half a") Half /\
  In ("day", UDay) full_units /\ seconds_after 43200 t (Moment (Cal 2024 2 28) 9 15 7) /\ real_moment (Moment (Cal 2024 2 28) 9 15 7) /\
  nothing_else strict_env text (ptime_of t 3) deadline (bs "call ") (bs "in half a day") /\
  main strict_env sort_stable gwords_init text (ptime_of t 3) = Ret (line (bs "2024-Feb-28 09:15:00")).
Proof.
  cbv zeta. split; [inst|]. split; [reflexivity|]. split; [apply separate_dec; reflexivity|].
  split; [exists (bs "in"), (bs " "), (bs " "); split; [reflexivity|]; split; [auto|]; repeat split; try discriminate; repeat constructor|].
  split; [apply (sp_half_a (bs "a") (bs " ")); [left; reflexivity|repeat constructor|discriminate]|]. split; [cbn; tauto|]. split; [concrete|]. split; [inst|].
  split; [apply inside_only_ok; [exact same_deadline|vm_compute; reflexivity]|vm_compute; reflexivity].
Qed.
