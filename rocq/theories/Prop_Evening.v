(** * A casual time, deadline or week phrase beside a clock time (C127-C130) *)
From Verif Require Import Base Regex RegexParse Calendar Components Utils Execute Spec View ParserSpec PhraseSpec WeekSpec MiddleSpec CalendarCycle CalendarFacts RegexFacts ResultFacts
  ExecuteFacts ParserRe MatchFacts LocateFacts HistoryFacts ParserFacts CasualFacts DeadlineFacts HolidayFacts ISOShape ISOFacts ZoneFacts MergeFacts FoundFacts OverlapFacts P_CasualDate P_CasualTime P_ISO P_Deadline P_Week P_Holiday P_MiddleEndian P_TimeExpression MiddleFacts Prop_Casual Prop_Deadline Prop_Middle Prop_Found Prop_Times Refiners Main Prop_Execute Prop_Refine Prop_Tags
  ClockSpec ClockTextSpec Prop_Clock Prop_ClockText MainFacts Prop_Main Prop_Answers Prop_Format Prop_Sentence Prop_ClockAnswer Prop_DateTime Prop_Range Prop_MonthText Prop_MonthTime Prop_TimeDay Prop_MonthClock Prop_TwoDates Prop_Linked Prop_LinkedDay Prop_Vague Prop_TimeDay Prop_Tomorrow .
From Coq Require Import ZifyBool ZifyNat ZifyN.
Open Scope string_scope.
Open Scope list_scope.
Open Scope Z_scope.

(** a casual time, a deadline or a week phrase is reported exactly where it stands *)
Lemma vague_found e text t us p pre w post mo l : sane e -> real_instant t us -> Z.of_nat (List.length text) < 2 ^ 32 ->
  to_lower text = pre ++ w ++ post -> separate pre post -> In p vague -> phrase_says t p pre w post mo -> real_moment mo -> alone e p text (ptime_of t us) = Ret l ->
  exists res, In res l /\ stands res pre w /\ has_end res = false /\ denotes (r_start res) mo.
Proof.
  intros He H Hn E Sp Ip Ps Rm El.
  destruct Ps as [pre post|pre post|pre post|pre sp post c B D|pre post c D|pre w post c W D|pre w post n v u q c D1 D2 D3 D4|pre w post n v u q secs t' D1 D2 D3 D4 D5 D6 D7 D8
    |pre yy mm dd post c D1 D2 D3 D4 D5|pre yy mm dd k post c D1 D2 D3 D4 D5 D6 D7 D8 D9|pre x r sp post c D1 D2 D3 D4|pre kw s s1 n s2 k ws post c D1 D2 D3 D4 D5 D6 D7 D8|pre sp post D1 D2|pre sp w h post D1 D2];
    try (exfalso; cbn in Ip; destruct Ip as [Q|[Q|[Q|[]]]]; discriminate Q).
  - assert (Iu : In (bs v) (map bs all_units)) by (apply in_map; apply in_or_app; left; apply (in_map fst) in D3; exact D3).
    pose proof (proj1 (proj1 H)) as Rt. pose proof (proj1 Rm) as R. cbn [mdate] in R.
    assert (Hm : forall k, q = Whole k -> k <= INT_MAX).
    { intros k ->. unfold INT_MAX. destruct u; cbn [deadline_target] in D4; try contradiction; try (destruct D4 as [_ T]; lia).
      - destruct (day_fits t k c Rt R D4) as (_ & L & _). lia.
      - destruct (day_fits t (7 * k) c Rt R D4) as (_ & L & _). lia. }
    destruct (C86_deadlines_stand e text t us pre w post n (bs v) q l He H Hn D1 D2 Iu Hm E Sp El) as (res & I & St & En & U & M). exists res. split; [exact I|]. split; [exact St|]. split; [exact En|]. specialize (M v u eq_refl D3).
    destruct (target_reached _ _ _ _ _ D4 M) as (_ & D & V).
    apply denotes_implied; [exact D|..]; apply (zero_of _ _ _ V); cbn; tauto.
  - assert (Iu : In (bs v) (map bs all_units)) by (apply in_map; apply in_or_app; left; apply (in_map fst) in D3; exact D3).
    assert (Hm : forall k, q = Whole k -> k <= INT_MAX) by (intros k Ek; specialize (D6 k Ek); unfold INT_MAX; lia).
    destruct (C86_deadlines_stand e text t us pre w post n (bs v) q l He H Hn D1 D2 Iu Hm E Sp El) as (res & I & St & En & U & M). exists res. split; [exact I|]. split; [exact St|]. split; [exact En|]. specialize (M v u eq_refl D3).
    pose proof (clock_reached _ _ _ _ _ _ D4 D5 D6 D7 M) as D.
    destruct D as (D & C1 & C2 & C3). rewrite <- D8 in D. destruct t' as [d h mi s]. apply denotes_implied; [exact D|..]; eauto using implied_value.
  - destruct (C89_weeks_stand e [] text t us pre kw s s1 n s2 k ws post l He ltac:(intros ? []) H Hn D1 D2 D3 D4 D5 E Sp D6 D7 El) as (res & c' & I & St & En & Da & _ & Di & U). exists res. split; [exact I|]. split; [exact St|]. split; [exact En|].
    rewrite (days_after_fun _ _ _ _ D8 Da). apply midnight_denotes; assumption.
  - destruct (C89_this_week_stands e [] text t us pre sp post l He ltac:(intros ? []) H Hn D1 E Sp D2 El) as (res & I & St & En & Di & U). exists res. split; [exact I|]. split; [exact St|]. split; [exact En|]. apply midnight_denotes; assumption.
  - destruct (C91_this_time_stands e gwords_init text t us pre sp w h post He H Hn D1 D2 E Sp) as (rs & res & X & I & St & En & Di & _ & Hh & Hm & U).
    unfold alone in El. rewrite X in El. apply RelativeFacts.ret_inj in El. subst l. exists res. split; [exact I|]. split; [exact St|]. split; [exact En|].
    apply denotes_implied; [exact Di|exact (implied_value _ _ _ Hh)|exact (implied_value _ _ _ Hm)|apply (zero_of _ _ _ U); cbn; tauto].
Qed.
Lemma vague_clockless t p pre w post mo : phrase_says t p pre w post mo -> In p vague -> w <> bs "now".
Proof.
  intros Ps Ip Q. destruct (says_parser _ _ _ _ _ _ Ps) as [_ _].
  destruct Ps; try (cbn in Ip; destruct Ip as [X|[X|[X|[]]]]; discriminate X).
  - match goal with X : deadline_phrase _ _ _ |- _ => destruct X as (kw & s1 & s2 & -> & [-> | ->] & _); discriminate end.
  - match goal with X : deadline_phrase _ _ _ |- _ => destruct X as (kw & s1 & s2 & -> & [-> | ->] & _); discriminate end.
  - match goal with X : way _ _ |- _ => destruct X as [[-> _]|[-> _]]; discriminate end.
  - discriminate.
  - discriminate.
Qed.
(** these phrases contain no colon *)
Definition no_colon (w : bytes) : Prop := Forall (fun c => c <> ":"%char) w.
Lemma blanks_no_colon w : blanks w -> no_colon w.
Proof. unfold blanks, no_colon. apply Forall_impl. intros a H ->. discriminate H. Qed.
Lemma digits_no_colon w : digits w -> no_colon w.
Proof. unfold digits, no_colon. apply Forall_impl. intros a H ->. discriminate H. Qed.
Lemma dec_no_colon w : forallb (fun c => negb (Ascii.eqb c ":"%char)) w = true -> no_colon w.
Proof. intros H. apply Forall_forall. intros a I ->. rewrite forallb_forall in H. specialize (H _ I). discriminate H. Qed.
Lemma cat_no_colon a b : no_colon a -> no_colon b -> no_colon (a ++ b).
Proof. intros A B. apply Forall_app. split; assumption. Qed.
Lemma number_no_colon w k : In (w, k) number_words -> no_colon (bs w).
Proof.
  intros I. apply dec_no_colon. assert (Q : forallb (fun x => forallb (fun c => negb (Ascii.eqb c ":"%char)) (bs (fst x))) number_words = true) by (vm_compute; reflexivity).
  rewrite forallb_forall in Q. exact (Q _ I).
Qed.
Lemma unit_no_colon v u : In (v, u) full_units -> no_colon (bs v).
Proof.
  intros I. apply dec_no_colon. assert (Q : forallb (fun x => forallb (fun c => negb (Ascii.eqb c ":"%char)) (bs (fst x))) full_units = true) by (vm_compute; reflexivity).
  rewrite forallb_forall in Q. exact (Q _ I).
Qed.
Lemma article_no_colon a : article a -> no_colon a.
Proof. intros [-> | ->]; apply dec_no_colon; reflexivity. Qed.
Lemma spells_no_colon n q : spells n q -> no_colon n.
Proof.
  intros [w k I|w D _|a A|a sp A B _| |a sp A B _]; repeat apply cat_no_colon; eauto using number_no_colon, digits_no_colon, article_no_colon, blanks_no_colon; apply dec_no_colon; reflexivity.
Qed.
Lemma deadline_no_colon w n v u q : deadline_phrase w n (bs v) -> spells n q -> In (v, u) full_units -> no_colon w.
Proof.
  intros (kw & s1 & s2 & -> & K & Bl) S I. assert (blanks s1 /\ blanks s2) as [B1 B2] by tauto. assert (no_colon kw) by (destruct K as [-> | ->]; apply dec_no_colon; reflexivity).
  repeat apply cat_no_colon; eauto using spells_no_colon, unit_no_colon, blanks_no_colon.
Qed.
Lemma vague_no_colon t p pre w post mo : phrase_says t p pre w post mo -> In p vague -> ~ In ":"%char w.
Proof.
  intros Ps Ip. assert (Q : no_colon w); [|unfold no_colon in Q; rewrite Forall_forall in Q; intros I; exact (Q _ I eq_refl)].
  destruct Ps as [pre post|pre post|pre post|pre sp post c B D|pre post c D|pre w post c W D|pre w post n v u q c D1 D2 D3 D4|pre w post n v u q secs t' D1 D2 D3 D4 D5 D6 D7 D8
    |pre yy mm dd post c D1 D2 D3 D4 D5|pre yy mm dd k post c D1 D2 D3 D4 D5 D6 D7 D8 D9|pre x r sp post c D1 D2 D3 D4|pre kw s s1 n s2 k ws post c D1 D2 D3 D4 D5 D6 D7 D8|pre sp post D1 D2|pre sp w h post D1 D2];
    try (exfalso; cbn in Ip; destruct Ip as [Q|[Q|[Q|[]]]]; discriminate Q).
  - exact (deadline_no_colon _ _ _ _ _ D1 D2 D3).
  - exact (deadline_no_colon _ _ _ _ _ D1 D2 D3).
  - assert (no_colon kw) by (destruct D1 as [[-> _]|[-> _]]; apply dec_no_colon; reflexivity). assert (no_colon ws) by (destruct D5 as [-> | ->]; apply dec_no_colon; reflexivity).
    assert (no_colon n /\ no_colon s2) as [Nn N2]. { destruct D4 as [|n s2 X1 X2 X3 X4|w k s2 X1 X2 X3]; split; eauto using number_no_colon, digits_no_colon, blanks_no_colon; constructor. }
    repeat apply cat_no_colon; auto using blanks_no_colon.
  - repeat apply cat_no_colon; auto using blanks_no_colon; apply dec_no_colon; reflexivity.
  - repeat apply cat_no_colon; auto using blanks_no_colon; [apply dec_no_colon; reflexivity|].
    cbn in D1. decompose [or] D1; try contradiction; match goal with E : (_, _) = (_, _) |- _ => injection E as <- <- end; apply dec_no_colon; reflexivity.
Qed.
Lemma vague_result e text t us p pre w post mo : sane e -> real_instant t us -> neighbours (mdate t) -> Z.of_nat (List.length text) < 2 ^ 32 ->
  to_lower text = pre ++ w ++ post -> separate pre post -> In p vague -> phrase_says t p pre w post mo -> real_moment mo ->
  day_result_at e text (ptime_of t us) p pre w (mdate mo) mo.
Proof.
  intros He H N Hn E Sp Ip Ps Rm l El. destruct (vague_found e text t us p pre w post mo l He H Hn E Sp Ip Ps Rm El) as (a & Ia & Sa & En & Da).
  assert (Sa2 : stands a pre (w ++ [])) by (rewrite app_nil_r; exact Sa).
  pose proof (daily_no_clock e text t us p pre w post mo l a [] He H N Hn E Sp Ps Rm (vague_daily _ Ip) (conj (vague_clockless _ _ _ _ _ _ Ps Ip) (vague_no_colon _ _ _ _ _ _ Ps Ip)) (Forall_nil _) El Ia Sa2) as C.
  exists a. split; [exact Ia|]. split; [exact (stands_place _ _ _ Sa)|]. split; [exact En|]. split; [destruct Da as (D1 & D2 & D3 & _); split; [exact D1|split; [exact D2|exact D3]]|].
  split; [exact C|]. split; [exact (plain_untimed e p text _ l a He (daily_plain _ (vague_daily _ Ip)) El Ia)|exact Da].
Qed.
Lemma at_result e text ref p pre w d dm : day_result_at e text ref p pre w d dm -> day_result e text ref p pre w d.
Proof. intros D l El. destruct (D l El) as (a & A1 & A2 & A3 & A4 & A5 & A6 & _). exists a. auto 10. Qed.

Lemma suggests_result e text t us p pre w post mo : sane e -> real_instant t us -> neighbours (mdate t) -> Z.of_nat (List.length text) < 2 ^ 32 ->
  to_lower text = pre ++ w ++ post -> separate pre post -> suggests t p pre w post mo -> real_moment mo ->
  day_result_at e text (ptime_of t us) p pre w (mdate mo) mo.
Proof.
  intros He H N Hn E Sp Su Rm. destruct Su as [p pre w post m Ip Ps|pre w post n v u q secs t' D1 D2 D3 D4 D5 D6 D7|pre w post n v t' D1 D2 D3 Sa].
  - exact (vague_result e text t us p pre w post m He H N Hn E Sp Ip Ps Rm).
  - intros l El. assert (Iu : In (bs v) (map bs all_units)) by (apply in_map; apply in_or_app; left; apply (in_map fst) in D3; exact D3).
    assert (Hm : forall k, q = Whole k -> k <= INT_MAX) by (intros k Ek; specialize (D6 k Ek); unfold INT_MAX; lia).
    destruct (C86_deadlines_stand e text t us pre w post n (bs v) q l He H Hn D1 D2 Iu Hm E Sp El) as (res & I & St & En & U & M). specialize (M v u eq_refl D3).
    destruct (clock_reached _ _ _ _ _ _ D4 D5 D6 D7 M) as (D & C1 & C2 & C3). exists res. split; [exact I|]. split; [exact (stands_place _ _ _ St)|]. split; [exact En|]. cbn [mdate].
    split; [apply date_on; right; exact D|]. split; [apply clock_uncertain; eapply implied_uncertain; eassumption|]. split; [exact (plain_untimed e deadline text _ l res He ltac:(cbn; tauto) El I)|].
    apply denotes_implied; [exact D|..]; eauto using implied_value.
  - intros l El. assert (Iu : In (bs v) (map bs all_units)) by (apply in_map; apply in_or_app; left; apply (in_map fst) in D3; exact D3).
    destruct (C86_deadlines_stand e text t us pre w post n (bs v) Half l He H Hn D1 D2 Iu ltac:(discriminate) E Sp El) as (res & I & St & En & U & M). specialize (M v UDay eq_refl D3).
    destruct M as (t2 & R2 & S2 & D & Hh & Hm & U2). cbn [mdate].
    assert (t2 = t').
    { destruct S2 as (V2 & A1 & A2 & A3 & E2), Sa as (V & B1 & B2 & B3 & E1). unfold sec_count in *.
      clear - V2 A1 A2 A3 E2 V B1 B2 B3 E1. assert (rd (mdate t2) = rd (mdate t')) by lia. assert (mdate t2 = mdate t') by (apply rd_inj; assumption).
      destruct t2 as [d2 h2 m2 s2], t' as [d3 h3 m3 s3]. cbn [Spec.mdate Spec.mhour Spec.mmin Spec.msec] in *. subst d3. f_equal; lia. }
    subst t2. exists res. split; [exact I|]. split; [exact (stands_place _ _ _ St)|]. split; [exact En|].
    split; [apply date_on; right; exact D|].
    split; [apply clock_uncertain; [exact (implied_uncertain _ _ _ Hh)|exact (implied_uncertain _ _ _ Hm)|eapply unset_uncertain; [exact U2|cbn; tauto]]|]. split; [exact (plain_untimed e deadline text _ l res He ltac:(cbn; tauto) El I)|].
    apply denotes_implied; [exact D|exact (implied_value _ _ _ Hh)|exact (implied_value _ _ _ Hm)|apply (zero_of _ _ _ U2); cbn; tauto].
Qed.

(** C127.  A text contains a casual time ("this evening"), a deadline ("in 5 hours", "in 3 days") or a week phrase ("next week"), later a clock time standing clear as in C93, no zone abbreviation and no connecting
    word after that, and nothing else is recognised.  Then the program prints the clock time on the day the first phrase is taken for; its hour is dropped. *)
Theorem C127_phrase_then_time : forall e sortf text t us p pre w mid c k q post mo h mi, sane e -> is_sort sortf -> real_instant t us -> neighbours (mdate t) -> Z.of_nat (List.length text) < 2 ^ 31 ->
  to_lower text = pre ++ w ++ mid ++ c ++ post -> separate pre (mid ++ c ++ post) -> suggests t p pre w (mid ++ c ++ post) mo -> real_moment mo ->
  clock_words c k q -> clear_before (pre ++ w ++ mid) -> clear_after q post -> clock_time k h mi -> seconds_fine k -> on_clock (ck_mark k) h < 24 ->
  ~ zone_follows post -> (forall v, In v connectors -> ~ occurs v post) -> only_pair e text (ptime_of t us) p pre w mid c ->
  main e sortf gwords_init text (ptime_of t us) = Ret (line (bs (written (day_moment (mdate mo) k h mi)))).
Proof.
  intros e sortf text t us p pre w mid c k q post mo h mi He Hs H N Hn E Sp Ps Rm Cw Cb Ca Ct Sf H24 Nz Nc Al.
  destruct (suggests_parser _ _ _ _ _ _ Ps) as [Nw Jp]. destruct (words_start _ _ _ Cw) as (c0 & c' & Ec & Hc0). assert (Hn2 : Z.of_nat (List.length text) < 2 ^ 32) by (clear - Hn; lia).
  assert (Nm : mid <> []). { intros ->. destruct Sp as [_ Sp]. cbn [app] in Sp. rewrite Ec in Sp. specialize (Sp c0 (c' ++ post) eq_refl). congruence. }
  apply (pair_main e sortf text t us p pre w mid c k q post (mdate mo) h mi); auto; [exact (day_in p Jp)|exact (plain_in p Jp)| |exact (proj1 Rm)].
  apply (at_result _ _ _ _ _ _ _ mo). apply (suggests_result e text t us p pre w (mid ++ c ++ post)); auto.
Qed.
Print Assumptions C127_phrase_then_time.

(** C128.  The same with the clock time first. *)
Theorem C128_time_then_phrase : forall e sortf text t us p pre c k q mid w post mo h mi, sane e -> is_sort sortf -> real_instant t us -> neighbours (mdate t) -> Z.of_nat (List.length text) < 2 ^ 31 ->
  to_lower text = pre ++ c ++ mid ++ w ++ post -> mid <> [] -> separate (pre ++ c ++ mid) post -> suggests t p (pre ++ c ++ mid) w post mo -> real_moment mo ->
  clock_words c k q -> clear_before pre -> clear_after q (mid ++ w ++ post) -> clock_time k h mi -> seconds_fine k -> on_clock (ck_mark k) h < 24 ->
  ~ zone_follows (mid ++ w ++ post) -> (forall v, In v connectors -> ~ occurs v post) -> only_time_day e text (ptime_of t us) p pre c mid w ->
  main e sortf gwords_init text (ptime_of t us) = Ret (line (bs (written (day_moment (mdate mo) k h mi)))).
Proof.
  intros e sortf text t us p pre c k q mid w post mo h mi He Hs H N Hn E Nm Sp Ps Rm Cw Cb Ca Ct Sf H24 Nz Nc Al.
  destruct (suggests_parser _ _ _ _ _ _ Ps) as [Nw Jp]. assert (Hn2 : Z.of_nat (List.length text) < 2 ^ 32) by (clear - Hn; lia).
  apply (time_day_main e sortf text t us p pre c k q mid w post (mdate mo) h mi); auto; [exact (day_in p Jp)|exact (plain_in p Jp)| |exact (proj1 Rm)].
  apply (at_result _ _ _ _ _ _ _ mo). apply (suggests_result e text t us p (pre ++ c ++ mid) w post); auto. rewrite E, <- !app_assoc. reflexivity.
Qed.
Print Assumptions C128_time_then_phrase.

(** C129.  The situation of C127 with a connecting word ("and", "to", "through", "-") somewhere after the clock time: the program prints a range that starts as in C127 and ends at the clock time on the reference date, or at
    the start if that is later. *)
Theorem C129_connecting_word_after_the_time : forall e sortf text t us p pre w mid c k q post mo h mi, sane e -> is_sort sortf -> real_instant t us -> neighbours (mdate t) -> Z.of_nat (List.length text) < 2 ^ 31 ->
  to_lower text = pre ++ w ++ mid ++ c ++ post -> separate pre (mid ++ c ++ post) -> suggests t p pre w (mid ++ c ++ post) mo -> real_moment mo ->
  clock_words c k q -> clear_before (pre ++ w ++ mid) -> clear_after q post -> clock_time k h mi -> seconds_fine k -> on_clock (ck_mark k) h < 24 ->
  ~ zone_follows post -> (exists v, In v connectors /\ occurs v post) -> only_pair e text (ptime_of t us) p pre w mid c ->
  main e sortf gwords_init text (ptime_of t us) = Ret (line (bs (written (day_moment (mdate mo) k h mi) ++ " - " ++ written (later (day_moment (mdate mo) k h mi) (day_moment (mdate t) k h mi)))%string)).
Proof.
  intros e sortf text t us p pre w mid c k q post mo h mi He Hs H N Hn E Sp Ps Rm Cw Cb Ca Ct Sf H24 Nz Nc Al.
  destruct (suggests_parser _ _ _ _ _ _ Ps) as [Nw Jp]. destruct (words_start _ _ _ Cw) as (c0 & c' & Ec & Hc0). assert (Hn2 : Z.of_nat (List.length text) < 2 ^ 32) by (clear - Hn; lia).
  assert (Nm : mid <> []). { intros ->. destruct Sp as [_ Sp]. cbn [app] in Sp. rewrite Ec in Sp. specialize (Sp c0 (c' ++ post) eq_refl). congruence. }
  apply (pair_linked e sortf text t us p pre w mid c k q post (mdate mo) h mi); auto; [exact (day_in p Jp)|exact (plain_in p Jp)| |exact (proj1 Rm)].
  apply (at_result _ _ _ _ _ _ _ mo). apply (suggests_result e text t us p pre w (mid ++ c ++ post)); auto.
Qed.
Print Assumptions C129_connecting_word_after_the_time.

(** C130.  The situation of C128 with a connecting word somewhere after the phrase: the program prints a range that starts as in C128 and ends at the moment the phrase is taken for, or at the start if that is later. *)
Theorem C130_connecting_word_after_the_phrase : forall e sortf text t us p pre c k q mid w post mo h mi, sane e -> is_sort sortf -> real_instant t us -> neighbours (mdate t) -> Z.of_nat (List.length text) < 2 ^ 31 ->
  to_lower text = pre ++ c ++ mid ++ w ++ post -> mid <> [] -> separate (pre ++ c ++ mid) post -> suggests t p (pre ++ c ++ mid) w post mo -> real_moment mo ->
  clock_words c k q -> clear_before pre -> clear_after q (mid ++ w ++ post) -> clock_time k h mi -> seconds_fine k -> on_clock (ck_mark k) h < 24 ->
  ~ zone_follows (mid ++ w ++ post) -> (exists v, In v connectors /\ occurs v post) -> only_time_day e text (ptime_of t us) p pre c mid w ->
  main e sortf gwords_init text (ptime_of t us) = Ret (line (bs (written (day_moment (mdate mo) k h mi) ++ " - " ++ written (later (day_moment (mdate mo) k h mi) mo))%string)).
Proof.
  intros e sortf text t us p pre c k q mid w post mo h mi He Hs H N Hn E Nm Sp Ps Rm Cw Cb Ca Ct Sf H24 Nz Nc Al.
  destruct (suggests_parser _ _ _ _ _ _ Ps) as [Nw Jp]. assert (Hn2 : Z.of_nat (List.length text) < 2 ^ 32) by (clear - Hn; lia).
  apply (time_day_linked e sortf text t us p pre c k q mid w post (mdate mo) h mi mo); auto; [exact (day_in p Jp)|exact (plain_in p Jp)| |exact (proj1 Rm)].
  apply (suggests_result e text t us p (pre ++ c ++ mid) w post); auto. rewrite E, <- !app_assoc. reflexivity.
Qed.
Print Assumptions C130_connecting_word_after_the_phrase.

(** ** Cases *)
Lemma of_others q : In q other_parsers -> In q parsers.
Proof. cbn. tauto. Qed.
Example C127_case : let t := Moment (Cal 2024 2 27) 9 15 0 in let k := Clock (bs "5") (bs "30") [] Pm in let text := bs "We met this evening, at 5:30 PM, for cake" in
  real_instant t 3 /\ neighbours (mdate t) /\ to_lower text = bs "we met " ++ bs "this evening" ++ bs ", at " ++ bs "5:30 pm" ++ bs ", for cake" /\ separate (bs "we met ") (bs ", at " ++ bs "5:30 pm" ++ bs ", for cake") /\
  suggests t casual_time (bs "we met ") (bs "this evening") (bs ", at " ++ bs "5:30 pm" ++ bs ", for cake") (Moment (Cal 2024 2 27) 20 15 0) /\ real_moment (Moment (Cal 2024 2 27) 20 15 0) /\
  clock_words (bs "5:30 pm") k (bs " pm") /\ clear_before (bs "we met " ++ bs "this evening" ++ bs ", at ") /\ clear_after (bs " pm") (bs ", for cake") /\ clock_time k 5 30 /\ seconds_fine k /\
  ~ zone_follows (bs ", for cake") /\ (forall v, In v connectors -> ~ occurs v (bs ", for cake")) /\
  only_pair strict_env text (ptime_of t 3) casual_time (bs "we met ") (bs "this evening") (bs ", at ") (bs "5:30 pm") /\
  main strict_env sort_stable gwords_init text (ptime_of t 3) = Ret (line (bs "2024-Feb-27 17:30:00")).
Proof.
  cbv zeta. split; [inst|]. split; [exists (Cal 2024 2 26), (Cal 2024 2 28); inst|]. split; [reflexivity|]. split; [apply separate_dec; reflexivity|]. split.
  { apply su_phrase; [cbn; tauto|]. apply (ps_this_time (Moment (Cal 2024 2 27) 9 15 0) _ (bs " ") "evening" 20); [cbn; tauto|repeat constructor]. }
  split; [inst|]. split; [exact case_words|].
  split; [apply (clear_letter (bs "we met this evening, a") "t"%char (bs " ")); [repeat constructor|discriminate|reflexivity|cbn; intuition discriminate]|].
  split; [apply (clear_sign (bs " pm") ","%char (bs " for cake")); [discriminate|reflexivity|reflexivity|cbn; intuition discriminate]|].
  split; [exact half_past_five|]. split; [left; reflexivity|]. split; [apply no_zone_comma|].
  split. { intros v Iv. cbn in Iv. destruct Iv as [<-|[<-|[<-|[<-|[]]]]]; apply Alphabet.containsb_ok; vm_compute; reflexivity. }
  split; [apply pair_only_ok; [intros q0 I0; exact (same_ct q0 (of_others q0 I0))|vm_compute; reflexivity]|vm_compute; reflexivity].
Qed.
(** the clock time has passed; nothing is said about the 5 hours *)
Example C128_case : let t := Moment (Cal 2024 2 27) 9 15 0 in let k := Clock (bs "5") (bs "30") [] Am in let text := bs "Milk at 5:30 AM, in 5 hours!" in
  real_instant t 3 /\ neighbours (mdate t) /\ to_lower text = bs "milk at " ++ bs "5:30 am" ++ bs ", " ++ bs "in 5 hours" ++ bs "!" /\ separate (bs "milk at " ++ bs "5:30 am" ++ bs ", ") (bs "!") /\
  suggests t deadline (bs "milk at " ++ bs "5:30 am" ++ bs ", ") (bs "in 5 hours") (bs "!") (Moment (Cal 2024 2 27) 14 15 0) /\ real_moment (Moment (Cal 2024 2 27) 14 15 0) /\
  clock_words (bs "5:30 am") k (bs " am") /\ clear_before (bs "milk at ") /\ clear_after (bs " am") (bs ", " ++ bs "in 5 hours" ++ bs "!") /\ clock_time k 5 30 /\ seconds_fine k /\
  ~ zone_follows (bs ", " ++ bs "in 5 hours" ++ bs "!") /\ (forall v, In v connectors -> ~ occurs v (bs "!")) /\
  only_time_day strict_env text (ptime_of t 3) deadline (bs "milk at ") (bs "5:30 am") (bs ", ") (bs "in 5 hours") /\
  main strict_env sort_stable gwords_init text (ptime_of t 3) = Ret (line (bs "2024-Feb-27 05:30:00")).
Proof.
  cbv zeta. split; [inst|]. split; [exists (Cal 2024 2 26), (Cal 2024 2 28); inst|]. split; [reflexivity|]. split; [apply separate_dec; reflexivity|]. split.
  { apply su_phrase; [cbn; tauto|]. apply (ps_deadline_clock _ _ _ _ (bs "5") "hours" UHour (Whole 5) 18000); [|apply (ParserSpec.sp_digits (bs "5")); [repeat constructor|discriminate]|cbn; tauto|discriminate|reflexivity|intros k [= <-]; lia|concrete|reflexivity].
    exists (bs "in"), (bs " "), (bs " "). split; [reflexivity|]. split; [auto|]. repeat split; try discriminate; repeat constructor. }
  split; [inst|]. split; [exact case_words_am|].
  split; [apply (clear_letter (bs "milk a") "t"%char (bs " ")); [repeat constructor|discriminate|reflexivity|cbn; intuition discriminate]|].
  split; [apply (clear_sign (bs " am") ","%char (bs " in 5 hours!")); [discriminate|reflexivity|reflexivity|cbn; intuition discriminate]|].
  split; [exact half_past_five_am|]. split; [left; reflexivity|]. split; [apply no_zone_comma|].
  split. { intros v Iv. cbn in Iv. destruct Iv as [<-|[<-|[<-|[<-|[]]]]]; apply Alphabet.containsb_ok; vm_compute; reflexivity. }
  split; [apply time_day_only_ok; [intros q0 I0; exact (same_dl q0 (of_others q0 I0))|vm_compute; reflexivity]|vm_compute; reflexivity].
Qed.
Example C129_case : let t := Moment (Cal 2024 2 27) 22 15 0 in let k := Clock (bs "5") (bs "30") [] Pm in let text := bs "We meet next week, at 5:30 PM, and eat cake" in
  real_instant t 3 /\ neighbours (mdate t) /\ to_lower text = bs "we meet " ++ bs "next week" ++ bs ", at " ++ bs "5:30 pm" ++ bs ", and eat cake" /\ separate (bs "we meet ") (bs ", at " ++ bs "5:30 pm" ++ bs ", and eat cake") /\
  suggests t week (bs "we meet ") (bs "next week") (bs ", at " ++ bs "5:30 pm" ++ bs ", and eat cake") (Moment (Cal 2024 3 5) 0 0 0) /\ real_moment (Moment (Cal 2024 3 5) 0 0 0) /\
  clock_words (bs "5:30 pm") k (bs " pm") /\ clear_before (bs "we meet " ++ bs "next week" ++ bs ", at ") /\ clear_after (bs " pm") (bs ", and eat cake") /\ clock_time k 5 30 /\ seconds_fine k /\
  ~ zone_follows (bs ", and eat cake") /\ (exists v, In v connectors /\ occurs v (bs ", and eat cake")) /\
  only_pair strict_env text (ptime_of t 3) week (bs "we meet ") (bs "next week") (bs ", at ") (bs "5:30 pm") /\
  main strict_env sort_stable gwords_init text (ptime_of t 3) = Ret (line (bs "2024-Mar-05 17:30:00 - 2024-Mar-05 17:30:00")).
Proof.
  cbv zeta. split; [inst|]. split; [exists (Cal 2024 2 26), (Cal 2024 2 28); inst|]. split; [reflexivity|]. split; [apply separate_dec; reflexivity|]. split.
  { apply su_phrase; [cbn; tauto|]. apply (ps_week _ _ (bs "next") 1 (bs " ") [] [] 1 (bs "week")); [right; auto|repeat constructor|discriminate|constructor|left; reflexivity|apply not_after_dec; reflexivity| |concrete].
    intros _ sp b E Bs. destruct sp as [|x sp]; [discriminate E|]. cbn in E. injection E as E _. subst x. inversion Bs; discriminate. }
  split; [inst|]. split; [exact case_words|].
  split; [apply (clear_letter (bs "we meet next week, a") "t"%char (bs " ")); [repeat constructor|discriminate|reflexivity|cbn; intuition discriminate]|].
  split; [apply (clear_sign (bs " pm") ","%char (bs " and eat cake")); [discriminate|reflexivity|reflexivity|cbn; intuition discriminate]|].
  split; [exact half_past_five|]. split; [left; reflexivity|]. split; [apply no_zone_comma|].
  split; [exists (bs "and"); split; [cbn; tauto|exists (bs ", "), (bs " eat cake"); reflexivity]|].
  split; [apply pair_only_ok; [intros q0 I0; exact (same_week q0 (of_others q0 I0))|vm_compute; reflexivity]|vm_compute; reflexivity].
Qed.
Example C130_case : let t := Moment (Cal 2024 2 27) 9 15 0 in let k := Clock (bs "5") (bs "30") [] Am in let text := bs "Milk at 5:30 AM, this evening, and cake" in
  real_instant t 3 /\ neighbours (mdate t) /\ to_lower text = bs "milk at " ++ bs "5:30 am" ++ bs ", " ++ bs "this evening" ++ bs ", and cake" /\ separate (bs "milk at " ++ bs "5:30 am" ++ bs ", ") (bs ", and cake") /\
  suggests t casual_time (bs "milk at " ++ bs "5:30 am" ++ bs ", ") (bs "this evening") (bs ", and cake") (Moment (Cal 2024 2 27) 20 15 0) /\ real_moment (Moment (Cal 2024 2 27) 20 15 0) /\
  clock_words (bs "5:30 am") k (bs " am") /\ clear_before (bs "milk at ") /\ clear_after (bs " am") (bs ", " ++ bs "this evening" ++ bs ", and cake") /\ clock_time k 5 30 /\ seconds_fine k /\
  ~ zone_follows (bs ", " ++ bs "this evening" ++ bs ", and cake") /\ (exists v, In v connectors /\ occurs v (bs ", and cake")) /\
  only_time_day strict_env text (ptime_of t 3) casual_time (bs "milk at ") (bs "5:30 am") (bs ", ") (bs "this evening") /\
  main strict_env sort_stable gwords_init text (ptime_of t 3) = Ret (line (bs "2024-Feb-27 05:30:00 - 2024-Feb-27 20:15:00")).
Proof.
  cbv zeta. split; [inst|]. split; [exists (Cal 2024 2 26), (Cal 2024 2 28); inst|]. split; [reflexivity|]. split; [apply separate_dec; reflexivity|]. split.
  { apply su_phrase; [cbn; tauto|]. apply (ps_this_time (Moment (Cal 2024 2 27) 9 15 0) _ (bs " ") "evening" 20); [cbn; tauto|repeat constructor]. }
  split; [inst|]. split; [exact case_words_am|].
  split; [apply (clear_letter (bs "milk a") "t"%char (bs " ")); [repeat constructor|discriminate|reflexivity|cbn; intuition discriminate]|].
  split; [apply (clear_sign (bs " am") ","%char (bs " this evening, and cake")); [discriminate|reflexivity|reflexivity|cbn; intuition discriminate]|].
  split; [exact half_past_five_am|]. split; [left; reflexivity|]. split; [apply no_zone_comma|].
  split; [exists (bs "and"); split; [cbn; tauto|exists (bs ", "), (bs " cake"); reflexivity]|].
  split; [apply time_day_only_ok; [intros q0 I0; exact (same_ct q0 (of_others q0 I0))|vm_compute; reflexivity]|vm_compute; reflexivity].
Qed.
(** 20 hours later is the next day, but the answer is on the reference date *)
Example C128_midnight_case : let t := Moment (Cal 2024 2 27) 9 15 0 in let k := Clock (bs "5") (bs "30") [] Am in let text := bs "Milk at 5:30 AM, in 20 hours!" in
  real_instant t 3 /\ neighbours (mdate t) /\ to_lower text = bs "milk at " ++ bs "5:30 am" ++ bs ", " ++ bs "in 20 hours" ++ bs "!" /\ separate (bs "milk at " ++ bs "5:30 am" ++ bs ", ") (bs "!") /\
  suggests t deadline (bs "milk at " ++ bs "5:30 am" ++ bs ", ") (bs "in 20 hours") (bs "!") (Moment (Cal 2024 2 27) 5 15 0) /\ real_moment (Moment (Cal 2024 2 27) 5 15 0) /\
  clock_words (bs "5:30 am") k (bs " am") /\ clear_before (bs "milk at ") /\ clear_after (bs " am") (bs ", " ++ bs "in 20 hours" ++ bs "!") /\ clock_time k 5 30 /\ seconds_fine k /\
  ~ zone_follows (bs ", " ++ bs "in 20 hours" ++ bs "!") /\ (forall v, In v connectors -> ~ occurs v (bs "!")) /\
  only_time_day strict_env text (ptime_of t 3) deadline (bs "milk at ") (bs "5:30 am") (bs ", ") (bs "in 20 hours") /\
  main strict_env sort_stable gwords_init text (ptime_of t 3) = Ret (line (bs "2024-Feb-27 05:30:00")).
Proof.
  cbv zeta. split; [inst|]. split; [exists (Cal 2024 2 26), (Cal 2024 2 28); inst|]. split; [reflexivity|]. split; [apply separate_dec; reflexivity|]. split.
  { apply (su_clock (Moment (Cal 2024 2 27) 9 15 0) _ _ _ (bs "20") "hours" UHour (Whole 20) 72000 (Moment (Cal 2024 2 28) 5 15 0)); [|apply (ParserSpec.sp_digits (bs "20")); [repeat constructor|discriminate]|cbn; tauto|discriminate|reflexivity|intros k [= <-]; lia|concrete].
    exists (bs "in"), (bs " "), (bs " "). split; [reflexivity|]. split; [auto|]. repeat split; try discriminate; repeat constructor. }
  split; [inst|]. split; [exact case_words_am|].
  split; [apply (clear_letter (bs "milk a") "t"%char (bs " ")); [repeat constructor|discriminate|reflexivity|cbn; intuition discriminate]|].
  split; [apply (clear_sign (bs " am") ","%char (bs " in 20 hours!")); [discriminate|reflexivity|reflexivity|cbn; intuition discriminate]|].
  split; [exact half_past_five_am|]. split; [left; reflexivity|]. split; [apply no_zone_comma|].
  split. { intros v Iv. cbn in Iv. destruct Iv as [<-|[<-|[<-|[<-|[]]]]]; apply Alphabet.containsb_ok; vm_compute; reflexivity. }
  split; [apply time_day_only_ok; [intros q0 I0; exact (same_dl q0 (of_others q0 I0))|vm_compute; reflexivity]|vm_compute; reflexivity].
Qed.
