(** * A connecting word after a day and a phrase that only suggests its date (C123, C124) *)
From Verif Require Import Base Regex RegexParse Calendar Components Utils Execute Spec View ParserSpec PhraseSpec WeekSpec MiddleSpec CalendarCycle CalendarFacts RegexFacts ResultFacts
  ExecuteFacts ParserRe MatchFacts LocateFacts HistoryFacts ParserFacts CasualFacts DeadlineFacts HolidayFacts ISOShape ISOFacts ZoneFacts MergeFacts FoundFacts OverlapFacts P_CasualDate P_CasualTime P_ISO P_Deadline P_Week P_Holiday P_MiddleEndian MiddleFacts Prop_Casual Prop_Deadline Prop_Middle Prop_Found Refiners Main Prop_Execute Prop_Refine Prop_Tags
  MainFacts Prop_Main Prop_Answers Prop_Format Prop_Sentence Prop_ClockAnswer Prop_DateTime Prop_Range Prop_MonthText Prop_MonthTime Prop_TimeDay Prop_MonthClock Prop_TwoDates Prop_Linked Prop_LinkedDay Prop_Vague.
From Coq Require Import ZifyBool ZifyNat ZifyN.
Open Scope string_scope.
Open Scope list_scope.
Open Scope Z_scope.

Lemma refined_vague_linked text d t c h mi s dm : no_zone text d -> no_zone text t -> res_copy d = d -> res_copy t = t -> no_clock (r_start d) -> time_only t -> is_certain Month (r_start d) = true -> has_end d = false -> has_end t = false ->
  on_date (r_start d) c -> getHour (r_start t) = h -> getMinute (r_start t) = mi -> getSeconds (r_start t) = s -> real_moment (Moment c h mi s) ->
  tag_is TExtractTZ d = false -> tag_is TExtractTZ t = false -> Z.of_nat (List.length text) < 2 ^ 31 ->
  0 <= starts t -> 0 < textLength d -> 0 < textLength t -> stops t <= starts d -> stops d <= Z.of_nat (List.length text) ->
  denotes (r_start d) dm -> real_moment dm -> (exists w, In w connectors /\ occurs w (skipn (Z.to_nat (stops d)) text)) ->
  exists m rest, (rs <- tz_refine [t; d] text ;; rs <- mdt_refine rs text ;; mdr_refine rs text) = Ret (m :: rest) /\ toDate m = Ret (bs (written (Moment c h mi s) ++ " - " ++ written (later (Moment c h mi s) dm))%string).
Proof.
  intros Zd Zt Cd Ct Nc To Th Ed Et Od Hh Hm Hs Rm Td Tt L D0 Ld Lt Dt Ln Ddm Rdm (v & Iv & Ov). rewrite tz_refine_total. cbn [bind map]. rewrite Cd, Ct.
  pose proof (proj1 (tz_one_spec text d) Zd) as S1. pose proof (proj1 (tz_one_spec text t) Zt) as S2. cbv zeta in S1, S2.
  set (d' := res_copy (tz_one tz_re text d)) in *. set (t' := res_copy (tz_one tz_re text t)) in *.
  destruct (same_stops _ _ S1) as (P1 & P2 & P3). destruct (same_stops _ _ S2) as (Q1 & Q2 & Q3).
  assert (To' : time_only t') by (unfold time_only; destruct S2 as (_ & _ & _ & E & _); rewrite E; exact To).
  assert (Th' : is_certain Month (r_start d') = true) by (destruct S1 as (_ & _ & _ & E & _); rewrite E; exact Th).
  assert (Nc' : no_clock (r_start d')) by (eapply same_clock; eassumption).
  assert (Hd' : has_end d' = false) by (destruct S1 as (_ & _ & _ & _ & E & _); rewrite E; exact Ed).
  assert (Ht' : has_end t' = false) by (destruct S2 as (_ & _ & _ & _ & E & _); rewrite E; exact Et).
  destruct (mdt_vague_first text d' t') as (m & Em & J); auto; [apply Nc'; cbn; tauto|unfold stops, OverlapFacts.starts in *; lia|unfold stops, OverlapFacts.starts in *; lia|apply filled_nonempty; intros E; unfold textLength in P3, Ld; rewrite E in P3; cbn in P3; lia|].
  rewrite Em. cbn [bind].
  destruct (C50_merge_moment text (res_copy d') (res_copy t') c h mi s m J) as [Dm Pr].
  { cbn [res_copy r_start]. destruct S1 as (_ & _ & _ & E & _). rewrite E. exact Od. }
  { cbn [res_copy r_start]. destruct S2 as (_ & _ & _ & E & _). rewrite E. exact Hh. }
  { cbn [res_copy r_start]. destruct S2 as (_ & _ & _ & E & _). rewrite E. exact Hm. }
  { cbn [res_copy r_start]. destruct S2 as (_ & _ & _ & E & _). rewrite E. exact Hs. }
  destruct J as (_ & _ & Jx & Jt & Je & _ & Jg).
  assert (U : u32 (Z.min (starts (res_copy d')) (starts (res_copy t'))) = starts t').
  { change (starts (res_copy d')) with (starts d'). change (starts (res_copy t')) with (starts t'). rewrite P2, Q2. clear - D0 Ld Lt Dt Ln L. unfold stops, starts in *. rewrite Z.min_r by lia. unfold u32. apply Z.mod_small. lia. }
  rewrite U in Jx.
  assert (Tl : textLength m = stops d - starts t).
  { unfold textLength. rewrite Jt, firstn_length, skipn_length. change (starts (res_copy d')) with (starts d'). change (starts (res_copy t')) with (starts t'). change (stops (res_copy d')) with (stops d'). change (stops (res_copy t')) with (stops t').
    rewrite P1, P2, Q1, Q2. clear - D0 Ld Lt Dt Ln L. unfold stops, starts in *. lia. }
  assert (Sm : solid text m). { unfold solid. unfold stops in *. unfold starts in *. rewrite Jx, Tl, Q2. clear - D0 Ld Lt Dt Ln L. lia. }
  assert (St : solid text (res_copy d')). { unfold solid. change (starts (res_copy d')) with (starts d'). change (stops (res_copy d')) with (stops d'). change (textLength (res_copy d')) with (textLength d'). rewrite P1, P2, P3. clear - D0 Ld Lt Dt Ln L. unfold stops, starts in *. lia. }
  assert (Sm' : stops m = stops d) by (unfold stops at 1; rewrite Tl; unfold starts in *; rewrite Jx, Q2; clear; lia).
  assert (Hm' : has_end m = false) by (rewrite Je; change (has_end (res_copy d')) with (has_end d'); change (has_end (res_copy t')) with (has_end t'); rewrite Hd', Ht'; reflexivity).
  assert (Lk : linked text m (res_copy d')).
  { split; [exact Hm'|]. split; [exact Hd'|]. exists v. split; [exact Iv|]. unfold between. change (starts (res_copy d')) with (starts d'). rewrite Sm', P2.
    replace (stops d <=? starts d) with false by (clear - Ld; unfold stops, starts in *; lia). rewrite firstn_all2 by (clear; rewrite skipn_length; lia). exact Ov. }
  assert (Dt' : denotes (r_start (res_copy d')) dm) by (cbn [res_copy r_start]; destruct S1 as (_ & _ & _ & E & _); rewrite E; exact Ddm).
  destruct (mdr_linked text m (res_copy d') (Moment c h mi s) dm Sm St L Lk Dm Dt' Rm Rdm) as (o & rest & Eo & Rg).
  exists o, rest. split; [exact Eo|]. destruct Rg as (pa & pb & A1 & A2 & Rg). cbv zeta in Rg. cbn [r_start res_copy] in A1, A2. rewrite (pc_date_denotes _ _ Dm Rm) in A1. cbn [res_copy r_start] in Dt'. rewrite (pc_date_denotes _ _ Dt' Rdm) in A2.
  injection A1 as <-. injection A2 as <-. rewrite moment_order in Rg. unfold later.
  assert (Gt : tag_is TExtractTZ t' = false) by (destruct S2 as (_ & _ & _ & _ & _ & _ & G2); rewrite G2; exact Tt).
  assert (Gd : tag_is TExtractTZ d' = false) by (destruct S1 as (_ & _ & _ & _ & _ & _ & G1); rewrite G1; exact Td).
  assert (Gm : tag_is TExtractTZ m = false).
  { rewrite Jg. cbn [r_tags res_copy]. destruct S1 as (_ & _ & _ & _ & _ & _ & G1). specialize (G1 TExtractTZ). rewrite Td, tag_is_tags in G1.
    destruct (r_tags d' TExtractTZ) as [b|]; [exact G1|]. rewrite tag_is_tags. cbn [r_tags res_copy]. rewrite <- tag_is_tags, Gt. reflexivity. }
  assert (Ga : forall b, r_tags (res_copy m) TExtractTZ = Some b -> b = false) by (intros b Eb; rewrite tag_is_tags in Gm; cbn [r_tags res_copy] in Eb; rewrite Eb in Gm; exact Gm).
  assert (Gc : forall x, tag_is TExtractTZ (res_copy x) = tag_is TExtractTZ x) by (intros x; rewrite !tag_is_tags; reflexivity).
  destruct (sec_count dm <? sec_count (Moment c h mi s)); destruct Rg as (M1 & M2 & M3 & _ & _ & _ & M4); cbn [r_start res_copy] in M1, M3.
  + apply toDate_range; auto; [rewrite M1; exact Dm|rewrite M4|rewrite M3; exact Dm].
    destruct (r_tags (res_copy m) TExtractTZ) as [b|]; [apply Ga; reflexivity|]. rewrite !Gc, Gm. reflexivity.
  + apply toDate_range; auto; [rewrite M1; exact Dm|rewrite M4|rewrite M3; exact Dt'].
    destruct (r_tags (res_copy m) TExtractTZ) as [b|]; [apply Ga; reflexivity|]. rewrite !Gc, Gd. reflexivity.
Qed.

(** blanks in front take nothing from a connecting word *)
Lemma word_remains s b post : blanks s -> post = s ++ b -> (exists v, In v connectors /\ occurs v post) -> exists v, In v connectors /\ occurs v (skipn (List.length s) post).
Proof.
  intros Bs Ep (v & Iv & O). destruct (blank_prefix s b post v [] Bs ltac:(rewrite app_nil_r; exact Ep) Iv O) as (m & Em & Om). exists v. split; [exact Iv|].
  replace (skipn (List.length s) post) with m; [exact Om|]. rewrite Em, skipn_app, skipn_all, Nat.sub_diag. reflexivity.
Qed.
(** C123.  The situation of C121 - a day, later a casual time, deadline or week phrase, nothing else recognised - but with a connecting word somewhere after the second phrase ("and", "to", "through", "-",
    even inside another word).  Then the program prints a range that starts at the first day with the clock of the second phrase and ends at the moment the second phrase is taken for, or at the start if that is later. *)
Theorem C123_day_hint_and_word : forall e sortf text t us p1 p2 pre w1 mid w2 post D m2, sane e -> is_sort sortf -> real_instant t us -> neighbours (mdate t) -> Z.of_nat (List.length text) < 2 ^ 31 ->
  to_lower text = pre ++ w1 ++ mid ++ w2 ++ post -> day_named t p1 pre w1 (mid ++ w2 ++ post) D ->
  separate (pre ++ w1 ++ mid) post -> suggests t p2 (pre ++ w1 ++ mid) w2 post m2 -> real_moment m2 ->
  (exists v, In v connectors /\ occurs v post) -> only_two e text (ptime_of t us) p1 p2 pre w1 mid w2 ->
  exists d, D d /\ (real_moment d -> main e sortf gwords_init text (ptime_of t us) = Ret (line (bs (written (at_clock d m2) ++ " - " ++ written (later (at_clock d m2) m2))%string))).
Proof.
  intros e sortf text t us p1 p2 pre w1 mid w2 post D m2 He Hs H N Hn E D1 Sp2 Ps2 R2 Nc Al.
  assert (Hn2 : Z.of_nat (List.length text) < 2 ^ 32) by (clear - Hn; lia).
  assert (E2 : to_lower text = (pre ++ w1 ++ mid) ++ w2 ++ post) by (rewrite E, <- !app_assoc; reflexivity).
  pose proof (named_parser _ _ _ _ _ _ D1) as J1. pose proof (plain_in p2 (proj2 (suggests_parser _ _ _ _ _ _ Ps2))) as J2.
  destruct (Al p1 J1) as (l1 & El1 & _). destruct (Al p2 J2) as (l2 & El2 & _).
  destruct (named_found e text t us p1 pre w1 _ D l1 He H N Hn2 E D1 El1) as (d & Hd & F1). exists d. split; [exact Hd|]. intros Rd.
  pose proof (named_head _ _ _ _ _ _ D1) as Hw1. pose proof (suggests_head _ _ _ _ _ _ Ps2) as Hw2.
  apply (pair_of e sortf text (ptime_of t us) p1 p2 pre w1 mid w2 post (bs (written (at_clock d m2) ++ " - " ++ written (later (at_clock d m2) m2))%string) (fun r => has_end r = false /\ denotes (r_start r) d /\ no_clock (r_start r)) (fun r => hint m2 r /\ denotes (r_start r) m2 /\ exists s b, blanks s /\ post = s ++ b /\ textLength r = Z.of_nat (List.length (w2 ++ s)))); auto.
  - destruct Hw1 as (c & v & -> & _). discriminate.
  - destruct Hw2 as (c & v & -> & _). discriminate.
  - intros l El. unfold alone in El. rewrite El1 in El. apply RelativeFacts.ret_inj in El. subst l. destruct (F1 Rd) as (r & s & b & I & St & Bs & Ep & En & Od & Nk & U & _).
    exists r, (List.length s). split; [exact I|]. split; [|auto]. destruct St as [S1 S2]. split; [exact S1|]. split; [unfold textLength; rewrite S2, app_length; reflexivity|]. exact (blank_room _ _ _ _ _ Bs Hw2 Ep).
  - intros l El. destruct (hint_means e text t us p2 _ w2 post m2 l He H N Hn2 E2 Sp2 Ps2 R2 El) as (r & s & b & I & St & Bs & Ep & U & Hi & Dm).
    exists r, (List.length s). destruct St as [S1 S2]. split; [exact I|]. split; [split; [exact S1|]; unfold textLength; rewrite S2, app_length; reflexivity|]. split; [exact U|]. split; [exact Hi|]. split; [exact Dm|]. exists s, b. unfold textLength. rewrite S2. auto.
  - intros a b (Ea & Oa & Na) ((Eb & To & Hh & Hm & Hx) & Dm & s & r & Bs & Ep & Lt) Za Zb Ca Cb Ta Tb L S0 La Lb Apart Sb (k & Lk & Ek).
    apply (refined_two_linked (to_lower text) a b (mdate d) (mhour m2) (mmin m2) (msec m2) m2); auto.
    + destruct Oa as (O1 & O2 & O3 & _). split; [exact O1|]. split; [exact O2|exact O3].
    + destruct R2 as (_ & R2). split; [exact (proj1 Rd)|exact R2].
    + rewrite Ek. rewrite Lt, app_length in Lk. replace k with (List.length s) by (clear - Lk; lia). exact (word_remains _ _ _ Bs Ep Nc).
Qed.
Print Assumptions C123_day_hint_and_word.

(** C124.  The situation of C122 with a connecting word somewhere after the day: a range from that day with the clock of the first phrase to what the day phrase alone means, or to the start if that is later. *)
Theorem C124_hint_day_and_word : forall e sortf text t us p1 p2 pre w1 mid w2 post D m1, sane e -> is_sort sortf -> real_instant t us -> neighbours (mdate t) -> Z.of_nat (List.length text) < 2 ^ 31 ->
  to_lower text = pre ++ w1 ++ mid ++ w2 ++ post -> separate pre (mid ++ w2 ++ post) -> suggests t p1 pre w1 (mid ++ w2 ++ post) m1 -> real_moment m1 ->
  day_named t p2 (pre ++ w1 ++ mid) w2 post D -> ~ In p2 [casual_time; deadline; week] ->
  (exists v, In v connectors /\ occurs v post) -> only_two e text (ptime_of t us) p1 p2 pre w1 mid w2 ->
  exists d, D d /\ (real_moment d -> main e sortf gwords_init text (ptime_of t us) = Ret (line (bs (written (at_clock d m1) ++ " - " ++ written (later (at_clock d m1) d))%string))).
Proof.
  intros e sortf text t us p1 p2 pre w1 mid w2 post D m1 He Hs H N Hn E Sp1 Ps1 R1 D2 Nv Nc Al. change (~ In p2 vague) in Nv.
  assert (Hn2 : Z.of_nat (List.length text) < 2 ^ 32) by (clear - Hn; lia).
  assert (E2 : to_lower text = (pre ++ w1 ++ mid) ++ w2 ++ post) by (rewrite E, <- !app_assoc; reflexivity).
  pose proof (named_parser _ _ _ _ _ _ D2) as J2. pose proof (plain_in p1 (proj2 (suggests_parser _ _ _ _ _ _ Ps1))) as J1.
  destruct (Al p1 J1) as (l1 & El1 & _). destruct (Al p2 J2) as (l2 & El2 & _).
  destruct (named_found e text t us p2 _ w2 post D l2 He H N Hn2 E2 D2 El2) as (d & Hd & F2). exists d. split; [exact Hd|]. intros Rd.
  pose proof (named_head _ _ _ _ _ _ D2) as Hw2. pose proof (suggests_head _ _ _ _ _ _ Ps1) as Hw1.
  apply (pair_of e sortf text (ptime_of t us) p1 p2 pre w1 mid w2 post (bs (written (at_clock d m1) ++ " - " ++ written (later (at_clock d m1) d))%string) (hint m1) (fun r => has_end r = false /\ denotes (r_start r) d /\ no_clock (r_start r) /\ is_certain Month (r_start r) = true /\ exists s b, blanks s /\ post = s ++ b /\ textLength r = Z.of_nat (List.length (w2 ++ s)))); auto.
  - destruct Hw1 as (c & v & -> & _). discriminate.
  - destruct Hw2 as (c & v & -> & _). discriminate.
  - intros l El. destruct (hint_found e text t us p1 pre w1 _ m1 l He H N Hn2 E Sp1 Ps1 R1 El) as (r & s & b & I & St & Bs & Ep & U & Hi).
    exists r, (List.length s). split; [exact I|]. split; [|auto]. destruct St as [S1 S2]. split; [exact S1|]. split; [unfold textLength; rewrite S2, app_length; reflexivity|]. exact (blank_room _ _ _ _ _ Bs Hw2 Ep).
  - intros l El. unfold alone in El. rewrite El2 in El. apply RelativeFacts.ret_inj in El. subst l. destruct (F2 Rd) as (r & s & b & I & St & Bs & Ep & En & Od & Nk & U & Mc). specialize (Mc Nv).
    exists r, (List.length s). destruct St as [S1 S2]. split; [exact I|]. split; [split; [exact S1|]; unfold textLength; rewrite S2, app_length; reflexivity|]. split; [exact U|]. split; [exact En|]. split; [exact Od|]. split; [exact Nk|]. split; [exact Mc|]. exists s, b. unfold textLength. rewrite S2. auto.
  - intros a b (Ea & To & Hh & Hm & Hx) (Eb & Ob & Nb & Mb & s & r & Bs & Ep & Lt) Za Zb Ca Cb Ta Tb L S0 La Lb Apart Sb (k & Lk & Ek).
    apply (refined_vague_linked (to_lower text) b a (mdate d) (mhour m1) (mmin m1) (msec m1) d); auto.
    + destruct Ob as (O1 & O2 & O3 & _). split; [exact O1|]. split; [exact O2|exact O3].
    + destruct R1 as (_ & R1). split; [exact (proj1 Rd)|exact R1].
    + rewrite Ek. rewrite Lt, app_length in Lk. replace k with (List.length s) by (clear - Lk; lia). exact (word_remains _ _ _ Bs Ep Nc).
Qed.
Print Assumptions C124_hint_day_and_word.

(** ** Cases *)
Example C123_case : let t := Moment (Cal 2024 2 27) 9 15 0 in let text := bs "We go tomorrow or next week, and stay" in
  real_instant t 3 /\ neighbours (mdate t) /\ to_lower text = bs "we go " ++ bs "tomorrow" ++ bs " or " ++ bs "next week" ++ bs ", and stay" /\
  day_named t casual_date (bs "we go ") (bs "tomorrow") (bs " or " ++ bs "next week" ++ bs ", and stay") (fun m => m = Moment (Cal 2024 2 28) 0 0 0) /\
  separate (bs "we go " ++ bs "tomorrow" ++ bs " or ") (bs ", and stay") /\
  suggests t week (bs "we go " ++ bs "tomorrow" ++ bs " or ") (bs "next week") (bs ", and stay") (Moment (Cal 2024 3 5) 0 0 0) /\
  (exists v, In v connectors /\ occurs v (bs ", and stay")) /\ only_two strict_env text (ptime_of t 3) casual_date week (bs "we go ") (bs "tomorrow") (bs " or ") (bs "next week") /\
  main strict_env sort_stable gwords_init text (ptime_of t 3) = Ret (line (bs "2024-Feb-28 00:00:00 - 2024-Mar-05 00:00:00")).
Proof.
  cbv zeta. split; [inst|]. split; [exists (Cal 2024 2 26), (Cal 2024 2 28); inst|]. split; [reflexivity|].
  split; [apply (dn_phrase _ casual_date (bs "we go ") (bs "tomorrow") _ (Moment (Cal 2024 2 28) 0 0 0)); [cbn; tauto|apply separate_dec; reflexivity|apply ps_tomorrow; [auto|concrete]|inst|split; [discriminate|cbn; intuition discriminate]]|].
  split; [apply separate_dec; reflexivity|]. split.
  { apply su_phrase; [cbn; tauto|]. apply (ps_week _ _ (bs "next") 1 (bs " ") [] [] 1 (bs "week")); [right; auto|repeat constructor|discriminate|constructor|left; reflexivity|apply not_after_dec; reflexivity| |concrete].
    intros _ sp b E Bs. destruct sp as [|x sp]; [discriminate E|]. cbn in E. injection E as E _. subst x. inversion Bs; discriminate. }
  split; [exists (bs "and"); split; [cbn; tauto|exists (bs ", "), (bs " stay"); reflexivity]|].
  split; [apply two_only_ok; [exact same_cd|exact same_week|vm_compute; reflexivity]|vm_compute; reflexivity].
Qed.
Example C124_case : let t := Moment (Cal 2024 2 27) 9 15 0 in let text := bs "Ring in 5 hours, or tomorrow, and knock" in
  real_instant t 3 /\ neighbours (mdate t) /\ to_lower text = bs "ring " ++ bs "in 5 hours" ++ bs ", or " ++ bs "tomorrow" ++ bs ", and knock" /\
  separate (bs "ring ") (bs ", or " ++ bs "tomorrow" ++ bs ", and knock") /\
  suggests t deadline (bs "ring ") (bs "in 5 hours") (bs ", or " ++ bs "tomorrow" ++ bs ", and knock") (Moment (Cal 2024 2 27) 14 15 0) /\ real_moment (Moment (Cal 2024 2 27) 14 15 0) /\
  day_named t casual_date (bs "ring " ++ bs "in 5 hours" ++ bs ", or ") (bs "tomorrow") (bs ", and knock") (fun m => m = Moment (Cal 2024 2 28) 0 0 0) /\
  (exists v, In v connectors /\ occurs v (bs ", and knock")) /\ only_two strict_env text (ptime_of t 3) deadline casual_date (bs "ring ") (bs "in 5 hours") (bs ", or ") (bs "tomorrow") /\
  main strict_env sort_stable gwords_init text (ptime_of t 3) = Ret (line (bs "2024-Feb-28 14:15:00 - 2024-Feb-28 14:15:00")).
Proof.
  cbv zeta. split; [inst|]. split; [exists (Cal 2024 2 26), (Cal 2024 2 28); inst|]. split; [reflexivity|]. split; [apply separate_dec; reflexivity|]. split.
  { apply su_phrase; [cbn; tauto|]. apply (ps_deadline_clock _ _ _ _ (bs "5") "hours" UHour (Whole 5) 18000); [|apply (sp_digits (bs "5")); [repeat constructor|discriminate]|cbn; tauto|discriminate|reflexivity|intros k [= <-]; lia|concrete|reflexivity].
    exists (bs "in"), (bs " "), (bs " "). split; [reflexivity|]. split; [auto|]. repeat split; try discriminate; repeat constructor. }
  split; [inst|].
  split; [apply (dn_phrase _ casual_date (bs "ring " ++ bs "in 5 hours" ++ bs ", or ") (bs "tomorrow") _ (Moment (Cal 2024 2 28) 0 0 0)); [cbn; tauto|apply separate_dec; reflexivity|apply ps_tomorrow; [auto|concrete]|inst|split; [discriminate|cbn; intuition discriminate]]|].
  split; [exists (bs "and"); split; [cbn; tauto|exists (bs ", "), (bs " knock"); reflexivity]|].
  split; [apply two_only_ok; [exact same_dl|exact same_cd|vm_compute; reflexivity]|vm_compute; reflexivity].
Qed.
