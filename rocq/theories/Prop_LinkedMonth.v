(** * A connecting word after a month date or a month name and its time (C117, C118) *)
From Verif Require Import Base Regex RegexParse Calendar Components Utils Execute Spec View ParserSpec PhraseSpec MiddleSpec MonthSpec ClockSpec ClockTextSpec CalendarCycle CalendarFacts RegexFacts ResultFacts
  ExecuteFacts ParserRe MatchFacts LocateFacts HistoryFacts ParserFacts ZoneFacts MergeFacts ClockFacts FoundFacts OverlapFacts P_MonthName P_MiddleEndian MiddleFacts P_TimeExpression Prop_Casual Prop_Middle Prop_Found Refiners Main Prop_Execute Prop_Refine Prop_Tags
  MainFacts Prop_Main Prop_Answers Prop_Format Prop_Sentence Prop_ClockText Prop_ClockAnswer Prop_DateTime Prop_Range Prop_MonthText Prop_MonthTime Prop_MonthName Prop_TimeDay Prop_Linked Prop_MonthClock Prop_LinkedDay.
From Coq Require Import ZifyBool ZifyNat ZifyN.
Open Scope string_scope.
Open Scope list_scope.
Open Scope Z_scope.

Lemma later_midnight t us c q d k h mi : real_instant t us -> clock_words c k q -> clock_time k h mi -> seconds_fine k -> on_clock (ck_mark k) h < 24 -> later (day_moment d k h mi) (Moment d 0 0 0) = day_moment d k h mi.
Proof.
  intros H Cw Ct Sf H24. pose proof (clock_real t us c k q h mi H Cw Ct Sf H24) as R. unfold real_moment, clock_moment in R. cbn [mdate mhour mmin msec] in R. destruct R as (_ & R1 & R2 & R3).
  unfold later, day_moment, sec_count. cbn [mdate mhour mmin msec].
  match goal with |- (if ?x <? ?y then _ else _) = _ => destruct (x <? y) eqn:E end; [reflexivity|]. f_equal; clear - E R1 R2 R3; lia.
Qed.
(** C117.  The situation of C100 - a date such as "March 5", later a clock time, nothing else recognised - but with a connecting word ("and", "to", "through", "-", even inside another word) somewhere after
    the time.  Then the program prints a range from that day at that time to the reference date at that time, or to the start if that is later. *)
Theorem C117_month_day_and_time_and_word : forall e sortf text t us pre tx x mid c k q post h mi, sane e -> is_sort sortf -> real_instant t us -> Z.of_nat (List.length text) < 2 ^ 31 ->
  to_lower text = pre ++ tx ++ mid ++ c ++ post -> plain_month_day tx x -> md_to x = None -> 1 <= md_day x <= 31 -> next_word (mid ++ c ++ post) -> mid <> [] ->
  (forall a b, pre = a ++ [b] -> is_word b = false) -> no_weekday_before pre (tx ++ mid ++ c ++ post) ->
  clock_words c k q -> clear_before (pre ++ tx ++ mid) -> clear_after q post -> clock_time k h mi -> seconds_fine k -> on_clock (ck_mark k) h < 24 ->
  ~ zone_follows post -> (exists v, In v connectors /\ occurs v post) -> only_pair e text (ptime_of t us) middle_endian pre tx mid c ->
  exists y, year_meant t x y /\ (real_date (Cal y (md_month x) (md_day x)) ->
    main e sortf gwords_init text (ptime_of t us) = Ret (line (bs (written (day_moment (Cal y (md_month x) (md_day x)) k h mi) ++ " - " ++ written (later (day_moment (Cal y (md_month x) (md_day x)) k h mi) (clock_moment t k h mi)))%string))).
Proof.
  intros e sortf text t us pre tx x mid c k q post h mi He Hs H Hn E P Nr Hd NW Nm Sa Nw Cw Cb Ca Ct Sf H24 Nz Nc Al.
  assert (Hn2 : Z.of_nat (List.length text) < 2 ^ 32) by (clear - Hn; lia).
  destruct (proj2 Al middle_endian in_others_me) as (l & El & _).
  destruct (month_day_result e text t us pre tx x (mid ++ c ++ post) l He H Hn2 P NW E Sa Nw Hd Nr El) as (y & r & Ym & I & St & En & D & N & _ & U).
  exists y. split; [exact Ym|]. intros Rd.
  apply (pair_linked e sortf text t us middle_endian pre tx mid c k q post); auto; [exact in_others_me|exact in_parsers_me|exact (plain_nonempty _ _ P)|].
  intros l' El'. unfold alone in El'. rewrite El in El'. apply RelativeFacts.ret_inj in El'. subst l'. exists r. split; [exact I|]. split; [exact (stands_place _ _ _ St)|]. split; [exact En|]. split; [|split; assumption].
  destruct D as (D1 & D2 & D3 & _). split; [exact D1|]. split; [exact D2|exact D3].
Qed.
Print Assumptions C117_month_day_and_time_and_word.

(** The time first, as in C105, and a connecting word somewhere after the date: the moment is printed twice, as a range. *)
Theorem C117_time_and_month_day_and_word : forall e sortf text t us pre c k q mid tx x post h mi, sane e -> is_sort sortf -> real_instant t us -> Z.of_nat (List.length text) < 2 ^ 31 ->
  to_lower text = pre ++ c ++ mid ++ tx ++ post -> plain_month_day tx x -> md_to x = None -> 1 <= md_day x <= 31 -> next_word post -> mid <> [] ->
  (forall a b, mid = a ++ [b] -> is_word b = false) -> no_weekday_before (pre ++ c ++ mid) (tx ++ post) ->
  clock_words c k q -> clear_before pre -> clear_after q (mid ++ tx ++ post) -> clock_time k h mi -> seconds_fine k -> on_clock (ck_mark k) h < 24 ->
  ~ zone_follows (mid ++ tx ++ post) -> (exists v, In v connectors /\ occurs v post) -> only_time_day e text (ptime_of t us) middle_endian pre c mid tx ->
  exists y, year_meant t x y /\ (real_date (Cal y (md_month x) (md_day x)) ->
    main e sortf gwords_init text (ptime_of t us) = Ret (line (bs (written (day_moment (Cal y (md_month x) (md_day x)) k h mi) ++ " - " ++ written (day_moment (Cal y (md_month x) (md_day x)) k h mi))%string))).
Proof.
  intros e sortf text t us pre c k q mid tx x post h mi He Hs H Hn E P Nr Hd NW Nm Sa Nw Cw Cb Ca Ct Sf H24 Nz Nc Al.
  assert (Hn2 : Z.of_nat (List.length text) < 2 ^ 32) by (clear - Hn; lia).
  assert (E2 : to_lower text = (pre ++ c ++ mid) ++ tx ++ post) by (rewrite E, <- !app_assoc; reflexivity).
  assert (Sa' : forall a b, pre ++ c ++ mid = a ++ [b] -> is_word b = false).
  { intros a b Q. destruct (exists_last Nm) as (m0 & b0 & Em). specialize (Sa m0 b0 Em). rewrite Em, !app_assoc in Q. apply app_inj_tail in Q as [_ <-]. exact Sa. }
  destruct (proj2 Al middle_endian in_others_me) as (l & El & _).
  destruct (month_day_result e text t us (pre ++ c ++ mid) tx x post l He H Hn2 P NW E2 Sa' Nw Hd Nr El) as (y & r & Ym & I & St & En & D & N & _ & U).
  exists y. split; [exact Ym|]. intros Rd. replace (written (day_moment (Cal y (md_month x) (md_day x)) k h mi) ++ " - " ++ written (day_moment (Cal y (md_month x) (md_day x)) k h mi))%string with (written (day_moment (Cal y (md_month x) (md_day x)) k h mi) ++ " - " ++ written (later (day_moment (Cal y (md_month x) (md_day x)) k h mi) (Moment (Cal y (md_month x) (md_day x)) 0 0 0)))%string by (rewrite (later_midnight t us c q _ _ _ _ H Cw Ct Sf H24); reflexivity).
  assert (Rm0 : real_moment (Moment (Cal y (md_month x) (md_day x)) 0 0 0)) by (unfold real_moment; cbn [mdate mhour mmin msec]; split; [exact Rd|clear; lia]).
  apply (time_day_linked e sortf text t us middle_endian pre c k q mid tx post (Cal y (md_month x) (md_day x)) h mi (Moment (Cal y (md_month x) (md_day x)) 0 0 0)); auto; [exact in_others_me|exact in_parsers_me|exact (plain_nonempty _ _ P)|].
  intros l' El'. unfold alone in El'. rewrite El in El'. apply RelativeFacts.ret_inj in El'. subst l'. exists r. split; [exact I|]. split; [exact (stands_place _ _ _ St)|]. split; [exact En|]. split; [|split; [assumption|split; [assumption|exact D]]].
  destruct D as (D1 & D2 & D3 & _). split; [exact D1|]. split; [exact D2|exact D3].
Qed.
Print Assumptions C117_time_and_month_day_and_word.

(** C118.  The same for a month name with or without a year, later a clock time (as in C106) *)
Theorem C118_month_and_time_and_word : forall e sortf text t us y lead mw m yr yo mid c k q post h mi, sane e -> is_sort sortf -> real_instant t us -> Z.of_nat (List.length text) < 2 ^ 31 ->
  to_lower text = y ++ lead ++ mw ++ yr ++ mid ++ c ++ post -> month_spelt mw m -> year_part yr yo -> month_free y lead -> month_closed mw yo (mid ++ c ++ post) -> mid <> [] ->
  clock_words c k q -> clear_before (y ++ lead ++ mw ++ yr ++ mid) -> clear_after q post -> clock_time k h mi -> seconds_fine k -> on_clock (ck_mark k) h < 24 ->
  ~ zone_follows post -> (exists v, In v connectors /\ occurs v post) -> only_pair e text (ptime_of t us) month_name y (mw ++ yr) (lead ++ mid) c ->
  exists v, month_year_is t m yo v /\ (real_date (Cal v m 1) -> main e sortf gwords_init text (ptime_of t us) = Ret (line (bs (written (day_moment (Cal v m 1) k h mi) ++ " - " ++ written (later (day_moment (Cal v m 1) k h mi) (clock_moment t k h mi)))%string))).
Proof.
  intros e sortf text t us y lead mw m yr yo mid c k q post h mi He Hs H Hn E Ms Y Fr Cl Nm Cw Cb Ca Ct Sf H24 Nz Nc Al.
  assert (Hn2 : Z.of_nat (List.length text) < 2 ^ 32) by (clear - Hn; lia).
  destruct (proj2 Al month_name in_others_mn) as (l & El & _).
  destruct (month_result e text t us y lead mw m yr yo (mid ++ c ++ post) l He H Hn2 E Ms Y Fr Cl El) as (v & r & Mv & I & Pl & En & D & N & _ & U).
  exists v. split; [exact Mv|]. intros Rd. specialize (D Rd).
  set (n := List.length (mw ++ yr)). set (w := firstn n (lead ++ mw ++ yr)). set (mid' := skipn n (lead ++ mw ++ yr) ++ mid).
  assert (Lw : List.length w = n) by (unfold w; rewrite firstn_length, app_length; fold n; lia).
  assert (Lm : List.length mid' = List.length (lead ++ mid)) by (unfold mid'; rewrite !app_length, skipn_length, app_length; fold n; lia).
  assert (Ej : w ++ mid' = lead ++ mw ++ yr ++ mid) by (unfold w, mid'; rewrite app_assoc, firstn_skipn, <- !app_assoc; reflexivity).
  apply (pair_linked e sortf text t us month_name y w mid' c k q post); auto.
  - rewrite E. rewrite (app_assoc w), Ej, <- !app_assoc. reflexivity.
  - exact in_others_mn.
  - exact in_parsers_mn.
  - intros Q. rewrite Q in Lw. cbn in Lw. pose proof (spelt_nonempty _ _ Ms). unfold n in Lw. rewrite app_length in Lw. destruct mw; [congruence|cbn in Lw; lia].
  - intros Q. rewrite Q in Lm. cbn in Lm. rewrite app_length in Lm. destruct mid; [congruence|cbn in Lm; lia].
  - intros l' El'. unfold alone in El'. rewrite El in El'. apply RelativeFacts.ret_inj in El'. subst l'. exists r. split; [exact I|]. rewrite Lw. split; [exact Pl|]. split; [exact En|]. split; [|split; assumption].
    destruct D as (D1 & D2 & D3 & _). split; [exact D1|]. split; [exact D2|exact D3].
  - rewrite Ej. exact Cb.
  - unfold only_pair in *. rewrite Lw, Lm. exact Al.
Qed.
Print Assumptions C118_month_and_time_and_word.

(** and for a clock time, later a month name (as in C107; the date's text is believed to start at the sign before the name) *)
Theorem C118_time_and_month_and_word : forall e sortf text t us pre c k q mid lead mw m yr yo post h mi, sane e -> is_sort sortf -> real_instant t us -> Z.of_nat (List.length text) < 2 ^ 31 ->
  to_lower text = pre ++ c ++ mid ++ lead ++ mw ++ yr ++ post -> month_spelt mw m -> year_part yr yo -> month_free (pre ++ c ++ mid) lead -> month_closed mw yo post -> mid <> [] ->
  clock_words c k q -> clear_before pre -> clear_after q (mid ++ lead ++ mw ++ yr ++ post) -> clock_time k h mi -> seconds_fine k -> on_clock (ck_mark k) h < 24 ->
  ~ zone_follows (mid ++ lead ++ mw ++ yr ++ post) -> (exists v, In v connectors /\ occurs v (believed_rest lead (mw ++ yr) post)) ->
  only_time_day e text (ptime_of t us) month_name pre c mid (mw ++ yr) ->
  exists v, month_year_is t m yo v /\ (real_date (Cal v m 1) -> main e sortf gwords_init text (ptime_of t us) = Ret (line (bs (written (day_moment (Cal v m 1) k h mi) ++ " - " ++ written (day_moment (Cal v m 1) k h mi))%string))).
Proof.
  intros e sortf text t us pre c k q mid lead mw m yr yo post h mi He Hs H Hn E Ms Y Fr Cl Nm Cw Cb Ca Ct Sf H24 Nz Nc Al.
  assert (Hn2 : Z.of_nat (List.length text) < 2 ^ 32) by (clear - Hn; lia).
  assert (E2 : to_lower text = (pre ++ c ++ mid) ++ lead ++ mw ++ yr ++ post) by (rewrite E, <- !app_assoc; reflexivity).
  destruct (proj2 Al month_name in_others_mn) as (l & El & _).
  destruct (month_result e text t us (pre ++ c ++ mid) lead mw m yr yo post l He H Hn2 E2 Ms Y Fr Cl El) as (v & r & Mv & I & Pl & En & D & N & _ & U).
  exists v. split; [exact Mv|]. intros Rd. specialize (D Rd). replace (written (day_moment (Cal v m 1) k h mi) ++ " - " ++ written (day_moment (Cal v m 1) k h mi))%string with (written (day_moment (Cal v m 1) k h mi) ++ " - " ++ written (later (day_moment (Cal v m 1) k h mi) (Moment (Cal v m 1) 0 0 0)))%string by (rewrite (later_midnight t us c q _ _ _ _ H Cw Ct Sf H24); reflexivity).
  assert (Rm0 : real_moment (Moment (Cal v m 1) 0 0 0)) by (unfold real_moment; cbn [mdate mhour mmin msec]; split; [exact Rd|clear; lia]).
  set (n := List.length (mw ++ yr)). set (w := firstn n (lead ++ mw ++ yr)). set (post' := skipn n (lead ++ mw ++ yr) ++ post).
  assert (Lw : List.length w = n) by (unfold w; rewrite firstn_length, app_length; fold n; lia).
  assert (Ej : w ++ post' = lead ++ mw ++ yr ++ post) by (unfold w, post'; rewrite app_assoc, firstn_skipn, <- !app_assoc; reflexivity).
  apply (time_day_linked e sortf text t us month_name pre c k q mid w post' (Cal v m 1) h mi (Moment (Cal v m 1) 0 0 0)); auto.
  - rewrite E, Ej. reflexivity.
  - exact in_others_mn.
  - exact in_parsers_mn.
  - intros Q. rewrite Q in Lw. cbn in Lw. pose proof (spelt_nonempty _ _ Ms). unfold n in Lw. rewrite app_length in Lw. destruct mw; [congruence|cbn in Lw; lia].
  - intros l' El'. unfold alone in El'. rewrite El in El'. apply RelativeFacts.ret_inj in El'. subst l'. exists r. split; [exact I|]. rewrite Lw. split; [exact Pl|]. split; [exact En|]. split; [|split; [assumption|split; [assumption|exact D]]].
    destruct D as (D1 & D2 & D3 & _). split; [exact D1|]. split; [exact D2|exact D3].
  - rewrite Ej. exact Ca.
  - rewrite Ej. exact Nz.
  - unfold only_time_day in *. rewrite Lw. exact Al.
Qed.
Print Assumptions C118_time_and_month_and_word.


(** ** Cases *)
Example C117_case : let t := Moment (Cal 2024 2 27) 9 15 0 in let k := Clock (bs "5") (bs "30") [] Pm in let text := bs "We meet on March 5 at 5:30 PM, and bring cake" in let x := MonthDay None 3 5 None None in
  real_instant t 3 /\ to_lower text = bs "we meet on " ++ bs "march 5 " ++ bs "at " ++ bs "5:30 pm" ++ bs ", and bring cake" /\ plain_month_day (bs "march 5 ") x /\ next_word (bs "at " ++ bs "5:30 pm" ++ bs ", and bring cake") /\
  no_weekday_before (bs "we meet on ") (bs "march 5 " ++ bs "at " ++ bs "5:30 pm" ++ bs ", and bring cake") /\
  clock_words (bs "5:30 pm") k (bs " pm") /\ clear_before (bs "we meet on " ++ bs "march 5 " ++ bs "at ") /\ clear_after (bs " pm") (bs ", and bring cake") /\ clock_time k 5 30 /\ seconds_fine k /\
  ~ zone_follows (bs ", and bring cake") /\ (exists v, In v connectors /\ occurs v (bs ", and bring cake")) /\
  only_pair strict_env text (ptime_of t 3) middle_endian (bs "we meet on ") (bs "march 5 ") (bs "at ") (bs "5:30 pm") /\
  main strict_env sort_stable gwords_init text (ptime_of t 3) = Ret (line (bs "2024-Mar-05 17:30:00 - 2024-Mar-05 17:30:00")).
Proof.
  cbv zeta. split; [inst|]. split; [reflexivity|].
  assert (P : plain_month_day (bs "march 5 ") (MonthDay None 3 5 None None)) by (apply (plain_case (bs "march") 3 (bs "5")); [exists "march"; left; split; [cbn; tauto|reflexivity]|repeat constructor|cbn; lia]).
  split; [exact P|]. split; [apply no_confusion_ok; vm_compute; reflexivity|]. split; [apply (no_stems _ _ _ _ P eq_refl); [exact (last_sign (bs "we meet on") " "%char eq_refl)|vm_compute; reflexivity]|].
  split; [exact case_words|].
  split; [apply (clear_letter (bs "we meet on march 5 a") "t"%char (bs " ")); [repeat constructor|discriminate|reflexivity|cbn; intuition discriminate]|].
  split; [apply (clear_sign (bs " pm") ","%char (bs " and bring cake")); [discriminate|reflexivity|reflexivity|cbn; intuition discriminate]|].
  split; [split; [apply (ts_minutes (bs "5") (bs "30") 5); [apply (hs_digits (bs "5")); [repeat constructor|cbn; lia]|repeat constructor|cbn; lia]|]; cbn; lia|].
  split; [left; reflexivity|]. split.
  { intros (abbr & z & (sp & lp & rp & E & B & Hl & _ & [L _] & F) & _). destruct sp as [|b sp]; [|cbn in E; injection E as <- _; inversion B; discriminate].
    destruct Hl as [->| ->]; [|discriminate]. destruct abbr as [|a abbr]; [cbn in L; lia|]. cbn in E. injection E as <- _. inversion F; discriminate. }
  split.
  { exists (bs "and"). split; [cbn; tauto|]. exists (bs ", "), (bs " bring cake"). reflexivity. }
  split; [apply pair_only_ok; [exact same_me_other|vm_compute; reflexivity]|vm_compute; reflexivity].
Qed.

Example C117_case_time_first : let t := Moment (Cal 2024 2 27) 9 15 0 in let k := Clock (bs "5") (bs "30") [] Pm in let text := bs "We meet at 5:30 PM, March 5 at the sandy fair" in let x := MonthDay None 3 5 None None in
  real_instant t 3 /\ to_lower text = bs "we meet at " ++ bs "5:30 pm" ++ bs ", " ++ bs "march 5 " ++ bs "at the sandy fair" /\ plain_month_day (bs "march 5 ") x /\ next_word (bs "at the sandy fair") /\
  no_weekday_before (bs "we meet at " ++ bs "5:30 pm" ++ bs ", ") (bs "march 5 " ++ bs "at the sandy fair") /\
  clock_words (bs "5:30 pm") k (bs " pm") /\ clear_before (bs "we meet at ") /\ clear_after (bs " pm") (bs ", " ++ bs "march 5 " ++ bs "at the sandy fair") /\ clock_time k 5 30 /\ seconds_fine k /\
  ~ zone_follows (bs ", " ++ bs "march 5 " ++ bs "at the sandy fair") /\ (exists v, In v connectors /\ occurs v (bs "at the sandy fair")) /\
  only_time_day strict_env text (ptime_of t 3) middle_endian (bs "we meet at ") (bs "5:30 pm") (bs ", ") (bs "march 5 ") /\
  main strict_env sort_stable gwords_init text (ptime_of t 3) = Ret (line (bs "2024-Mar-05 17:30:00 - 2024-Mar-05 17:30:00")).
Proof.
  cbv zeta. split; [inst|]. split; [reflexivity|].
  assert (P : plain_month_day (bs "march 5 ") (MonthDay None 3 5 None None)) by (apply (plain_case (bs "march") 3 (bs "5")); [exists "march"; left; split; [cbn; tauto|reflexivity]|repeat constructor|cbn; lia]).
  split; [exact P|]. split; [apply no_confusion_ok; vm_compute; reflexivity|]. split; [apply (no_stems _ _ _ _ P eq_refl); [exact (last_sign (bs "we meet at 5:30 pm,") " "%char eq_refl)|vm_compute; reflexivity]|].
  split; [exact case_words|].
  split; [apply (clear_letter (bs "we meet a") "t"%char (bs " ")); [repeat constructor|discriminate|reflexivity|cbn; intuition discriminate]|].
  split; [apply (clear_sign (bs " pm") ","%char (bs " march 5 at the sandy fair")); [discriminate|reflexivity|reflexivity|cbn; intuition discriminate]|].
  split; [split; [apply (ts_minutes (bs "5") (bs "30") 5); [apply (hs_digits (bs "5")); [repeat constructor|cbn; lia]|repeat constructor|cbn; lia]|]; cbn; lia|].
  split; [left; reflexivity|]. split; [apply (no_zone_comma (bs " march 5 at the sandy fair"))|]. split.
  { exists (bs "and"). split; [cbn; tauto|]. exists (bs "at the s"), (bs "y fair"). reflexivity. }
  split; [apply time_day_only_ok; [exact same_me_other|vm_compute; reflexivity]|vm_compute; reflexivity].
Qed.

Example C118_case : let t := Moment (Cal 2024 2 27) 9 15 0 in let k := Clock (bs "5") (bs "30") [] Pm in let text := bs "The fair of March 2012 at 5:30 PM, and bring cake" in
  real_instant t 3 /\ to_lower text = bs "the fair o" ++ bs "f " ++ bs "march" ++ bs " 2012" ++ bs " at " ++ bs "5:30 pm" ++ bs ", and bring cake" /\ month_spelt (bs "march") 3 /\ year_part (bs " 2012") (Some (bs "2012", NoEra)) /\
  month_free (bs "the fair o") (bs "f ") /\ month_closed (bs "march") (Some (bs "2012", NoEra)) (bs " at " ++ bs "5:30 pm" ++ bs ", and bring cake") /\
  clock_words (bs "5:30 pm") k (bs " pm") /\ clear_before (bs "the fair o" ++ bs "f " ++ bs "march" ++ bs " 2012" ++ bs " at ") /\ clear_after (bs " pm") (bs ", and bring cake") /\ clock_time k 5 30 /\ seconds_fine k /\ on_clock (ck_mark k) 5 < 24 /\
  ~ zone_follows (bs ", and bring cake") /\ (exists v, In v connectors /\ occurs v (bs ", and bring cake")) /\
  only_pair strict_env text (ptime_of t 3) month_name (bs "the fair o") (bs "march" ++ bs " 2012") (bs "f " ++ bs " at ") (bs "5:30 pm") /\
  main strict_env sort_stable gwords_init text (ptime_of t 3) = Ret (line (bs "2012-Mar-01 17:30:00 - 2024-Feb-27 17:30:00")).
Proof.
  cbv zeta. split; [inst|]. split; [reflexivity|]. split; [apply spelt_name; cbn; tauto|]. split; [apply (year_case "2012"); [repeat constructor|reflexivity]|].
  split; [apply (free_after (bs "the fair ") "o"%char "f"%char (bs " ")); [reflexivity|reflexivity|reflexivity|repeat constructor|discriminate|cbn; intuition discriminate]|].
  split; [right; left; exists "a"%char, (bs "t 5:30 pm, and bring cake"); split; [reflexivity|]; split; [reflexivity|]; split; [reflexivity|]; intros (T3 & Q); discriminate Q|].
  split; [exact case_words|].
  split; [apply (clear_letter (bs "the fair of march 2012 a") "t"%char (bs " ")); [repeat constructor|discriminate|reflexivity|cbn; intuition discriminate]|].
  split; [apply (clear_sign (bs " pm") ","%char (bs " and bring cake")); [discriminate|reflexivity|reflexivity|cbn; intuition discriminate]|].
  split; [split; [apply (ts_minutes (bs "5") (bs "30") 5); [apply (hs_digits (bs "5")); [repeat constructor|cbn; lia]|repeat constructor|cbn; lia]|]; cbn; lia|].
  split; [left; reflexivity|]. split; [reflexivity|]. split; [apply (no_zone_comma (bs " and bring cake"))|]. split.
  { exists (bs "and"). split; [cbn; tauto|]. exists (bs ", "), (bs " bring cake"). reflexivity. }
  split; [apply pair_only_ok; [exact same_mn_other|vm_compute; reflexivity]|vm_compute; reflexivity].
Qed.

Example C118_case_time_first : let t := Moment (Cal 2024 2 27) 9 15 0 in let k := Clock (bs "5") (bs "30") [] Pm in let text := bs "We meet at 5:30 PM, as of March 2012, and bring cake" in
  real_instant t 3 /\ to_lower text = bs "we meet at " ++ bs "5:30 pm" ++ bs ", as o" ++ bs "f " ++ bs "march" ++ bs " 2012" ++ bs ", and bring cake" /\ month_spelt (bs "march") 3 /\ year_part (bs " 2012") (Some (bs "2012", NoEra)) /\
  month_free (bs "we meet at " ++ bs "5:30 pm" ++ bs ", as o") (bs "f ") /\ month_closed (bs "march") (Some (bs "2012", NoEra)) (bs ", and bring cake") /\
  clock_words (bs "5:30 pm") k (bs " pm") /\ clear_before (bs "we meet at ") /\ clear_after (bs " pm") (bs ", as o" ++ bs "f " ++ bs "march" ++ bs " 2012" ++ bs ", and bring cake") /\ clock_time k 5 30 /\ seconds_fine k /\ on_clock (ck_mark k) 5 < 24 /\
  ~ zone_follows (bs ", as o" ++ bs "f " ++ bs "march" ++ bs " 2012" ++ bs ", and bring cake") /\ (exists v, In v connectors /\ occurs v (believed_rest (bs "f ") (bs "march" ++ bs " 2012") (bs ", and bring cake"))) /\
  only_time_day strict_env text (ptime_of t 3) month_name (bs "we meet at ") (bs "5:30 pm") (bs ", as o") (bs "march" ++ bs " 2012") /\
  main strict_env sort_stable gwords_init text (ptime_of t 3) = Ret (line (bs "2012-Mar-01 17:30:00 - 2012-Mar-01 17:30:00")).
Proof.
  cbv zeta. split; [inst|]. split; [reflexivity|]. split; [apply spelt_name; cbn; tauto|]. split; [apply (year_case "2012"); [repeat constructor|reflexivity]|].
  split; [apply (free_after (bs "we meet at 5:30 pm, as ") "o"%char "f"%char (bs " ")); [reflexivity|reflexivity|reflexivity|repeat constructor|discriminate|cbn; intuition discriminate]|].
  split; [left; split; [reflexivity|]; split; [reflexivity|]; discriminate|].
  split; [exact case_words|].
  split; [apply (clear_letter (bs "we meet a") "t"%char (bs " ")); [repeat constructor|discriminate|reflexivity|cbn; intuition discriminate]|].
  split; [apply (clear_sign (bs " pm") ","%char (bs " as of march 2012, and bring cake")); [discriminate|reflexivity|reflexivity|cbn; intuition discriminate]|].
  split; [split; [apply (ts_minutes (bs "5") (bs "30") 5); [apply (hs_digits (bs "5")); [repeat constructor|cbn; lia]|repeat constructor|cbn; lia]|]; cbn; lia|].
  split; [left; reflexivity|]. split; [reflexivity|]. split; [apply (no_zone_comma (bs " as of march 2012, and bring cake"))|]. split.
  { exists (bs "and"). split; [cbn; tauto|]. exists (bs "12, "), (bs " bring cake"). vm_compute. reflexivity. }
  split; [apply time_day_only_ok; [exact same_mn_other|vm_compute; reflexivity]|vm_compute; reflexivity].
Qed.

