(** * "in/within N units" (C23, C24, C25, C26) *)
From Verif Require Import Base Regex RegexParse Calendar Components Utils Execute Spec View ParserSpec CalendarCycle CalendarFacts RegexFacts ResultFacts
  ExecuteFacts ParserRe MatchFacts LocateFacts HistoryFacts ParserFacts CasualFacts NumberFacts DeadlineFacts Main P_Deadline Prop_Execute Prop_Casual.
From Coq Require Import ZifyBool ZifyNat ZifyN.
Open Scope string_scope.
Open Scope list_scope.
Open Scope Z_scope.

Lemma in_deadline : In deadline all_parsers. Proof. cbn; tauto. Qed.

(** the phrase: a key word, a quantity, a unit, separated by white space *)
Definition deadline_phrase (tx n u : bytes) : Prop :=
  exists kw s1 s2, tx = kw ++ s1 ++ n ++ s2 ++ u /\ (kw = bs "in" \/ kw = bs "within") /\ blanks s1 /\ s1 <> [] /\ blanks s2 /\ s2 <> [].

(** C23, every result on every text: its text is such a phrase, and if the unit is written in full it means what it says. *)
Theorem C23_every_deadline : forall e text t us rs res, sane e -> real_instant t us ->
  x_res (execute e deadline gwords_init text (ptime_of t us)) = Ret rs -> In res rs ->
  exists n q u, deadline_phrase (r_text res) n u /\ spells n q /\ In u (map bs all_units) /\
    has_end res = false /\ untouched [WDay; TzOffset] (r_start res) /\
    (forall w k, u = bs w -> In (w, k) full_units -> deadline_means t q k (r_start res)).
Proof.
  intros e text t us rs res He H X I.
  destruct (results_from_pure e deadline_pattern deadline_extract gwords_init text _ rs res deadline_re He in_deadline deadline_compile X I)
    as (off & m & r0 & S & L & Xr & P & ->).
  destruct (deadline_extracted e _ _ _ _ _ _ H L S Xr P) as (kw & s1 & n & s2 & u & q & Em & K & B1 & N1 & Sq & B2 & N2 & Iu & (U & F & _) & T & _ & E).
  exists n, q, u. cbn [r_text r_start res_copy]. rewrite T. split; [exists kw, s1, s2; auto 10|]. repeat split; auto.
Qed.
Print Assumptions C23_every_deadline.

(** the phrase alone gives exactly one result *)
Lemma deadline_alone e text t us n q u : real_instant t us -> deadline_phrase (to_lower text) n u -> spells n q -> In u (map bs all_units) ->
  (forall k, q = Whole k -> k <= INT_MAX) -> (forall w k, u = bs w -> In (w, k) full_units -> fits t q k) ->
  exists res, x_res (execute e deadline gwords_init text (ptime_of t us)) = Ret [res] /\ r_text res = to_lower text /\ r_index res = 0 /\ has_end res = false /\
    deadline_said t n u q res.
Proof.
  intros H (kw & s1 & s2 & E & K & B1 & N1 & B2 & N2) Sq Iu Hm F.
  assert (Lo : low (kw ++ s1 ++ n ++ s2 ++ u)) by (rewrite <- E; apply low_to_lower).
  destruct (deadline_search_whole kw s1 n s2 u q K B1 N1 Sq B2 N2 Iu Lo) as (m & S & P & Em & G3 & G4). rewrite <- E in S, Em.
  pose proof (spells_amount n q Sq) as A.
  assert (Q : deadline_amount gwords_init n = Some (num_of q) /\ (forall k, q = Whole k -> 0 <= k)).
  { destruct q as [k|]; cbn [amount_ok num_of] in *; [|split; [exact A|discriminate]]. destruct A as (Hk & A). split; [|intros ? E'; injection E' as <-; exact Hk].
    destruct A as [A|(_ & _ & A)]; [exact A|]. specialize (Hm k eq_refl). lia. }
  destruct Q as [Q Hq].
  destruct (deadline_rest_returns t us q u 0 (m_str m) H Iu Hq F) as [res R].
  assert (X : deadline_extract e gwords_init (to_lower text) m (ptime_of t us) 0 = Ret res).
  { unfold deadline_extract. rewrite G3, Q, G4, pt_date_of by exact H. cbn [bind grp]. exact R. }
  pose proof (deadline_rest_said t us q n u 0 (m_str m) res H Iu Hq R) as Sd.
  pose proof (said_possible t us n u q res H Iu Sd) as Pd.
  destruct (deadline_extracted e _ _ _ _ _ _ H (low_to_lower text) S X Pd) as (_ & _ & _ & _ & _ & _ & _ & _ & _ & _ & _ & _ & _ & _ & _ & T & Ix & En).
  exists (res_copy res). split.
  - rewrite (execute_whole e deadline gwords_init text (ptime_of t us) deadline_re m gwords_init res deadline_compile); auto.
    + apply Nat.leb_le. vm_compute. reflexivity.
    + cbn [p_extract deadline]. unfold pure_extract. rewrite X. reflexivity.
  - cbn [r_text r_index res_copy]. rewrite T, Em, Ix. split; [reflexivity|]. split; [reflexivity|]. split; [exact En|exact Sd].
Qed.

(** C23, the phrase on its own, in any letter case and with any white space: exactly one result, on exactly the date named. *)
Theorem C23_deadline_date : forall e text t us n q w u c, real_instant t us ->
  deadline_phrase (to_lower text) n (bs w) -> spells n q -> In (w, u) full_units -> deadline_target t q u c -> real_date c ->
  exists res, x_res (execute e deadline gwords_init text (ptime_of t us)) = Ret [res] /\ r_text res = to_lower text /\ r_index res = 0 /\
    date_implied (r_start res) c /\ untouched [WDay; Hour; Min; Sec; TzOffset] (r_start res) /\ has_end res = false.
Proof.
  intros e text t us n q w u c H Ph Sq Iw T R. pose proof (proj1 (proj1 H)) as Rt.
  assert (Iu : In (bs w) (map bs all_units)). { apply in_map. apply in_or_app. left. apply (in_map fst) in Iw. exact Iw. }
  assert (F : forall w' k, bs w = bs w' -> In (w', k) full_units -> fits t q k).
  { intros w' k E I'. symmetry in E. rewrite (same_unit _ _ _ _ E Iw I'). destruct u, q; cbn [deadline_target fits] in *; try contradiction; eauto. }
  assert (Hm : forall k, q = Whole k -> k <= INT_MAX).
  { intros k ->. unfold INT_MAX. destruct u; cbn [deadline_target] in T; try contradiction; try (destruct T as [_ T]; lia).
    - destruct (day_fits t k c Rt R T) as (_ & L & _). lia.
    - destruct (day_fits t (7 * k) c Rt R T) as (_ & L & _). lia. }
  destruct (deadline_alone e text t us n q (bs w) H Ph Sq Iu Hm F) as (res & X & Tx & Ix & En & U & M & _).
  exists res. specialize (M w u eq_refl Iw). do 3 (split; [assumption|]).
  inversion U as [|? ? U1 U']; subst. inversion U' as [|? ? U2 _]; subst.
  assert (G : forall c', (deadline_target t q u c') -> valid c' -> c' = c).
  { intros c' T' V'. destruct u, q; cbn [deadline_target] in T, T'; try contradiction;
      first [ destruct T as [_ T]; destruct T' as [_ T']; apply rd_inj; [exact V'|apply R|lia]
            | destruct T as [T _]; destruct T' as [T' _]; apply months_after_fun in T, T'; congruence
            | apply months_after_fun in T, T'; congruence ]. }
  assert (D : exists c', deadline_target t q u c' /\ day_result (r_start res) c').
  { destruct u, q; cbn [deadline_target deadline_means] in *; try contradiction; destruct M as (c' & M1 & M2); exists c'; split; auto; split; auto; apply T. }
  destruct D as (c' & T' & R' & D & V). pose proof (G c' T' (proj1 R')) as ->. split; [exact D|]. split; [|exact En].
  inversion V as [|? ? V1 V']; subst. inversion V' as [|? ? V2 V'']; subst. inversion V'' as [|? ? V3 _]; subst.
  repeat constructor; assumption || apply U1 || apply U2 || apply V1 || apply V2 || apply V3.
Qed.
Print Assumptions C23_deadline_date.

(** half a day is twelve hours, across midnight too *)
Theorem C23_half_day : forall e text t us n t', real_instant t us ->
  deadline_phrase (to_lower text) n (bs "day") -> spells n Half -> real_moment t' -> seconds_after 43200 t t' ->
  exists res, x_res (execute e deadline gwords_init text (ptime_of t us)) = Ret [res] /\ r_text res = to_lower text /\ r_index res = 0 /\ has_end res = false /\
    date_implied (r_start res) (mdate t') /\ implied_is Hour (mhour t') (r_start res) /\ implied_is Min (mmin t') (r_start res) /\ untouched [Sec] (r_start res).
Proof.
  intros e text t us n t' H Ph Sq R Sa.
  assert (Iu : In (bs "day") (map bs all_units)) by (cbn; tauto).
  destruct (deadline_alone e text t us n Half (bs "day") H Ph Sq Iu) as (res & X & Tx & Ix & En & U & M & _); [discriminate| |].
  { intros w k E I'. assert (I1 : In ("day", UDay) full_units) by (cbn; tauto). symmetry in E. rewrite (same_unit _ _ _ _ E I1 I'). cbn. eauto. }
  exists res. do 4 (split; [assumption|]). destruct (M "day" UDay eq_refl ltac:(cbn; tauto)) as (t2 & R2 & S2 & D & Hh & Hm & U2).
  assert (t2 = t').
  { destruct S2 as (V2 & A1 & A2 & A3 & E2), Sa as (V & B1 & B2 & B3 & E1). unfold sec_count in *.
    clear - V2 A1 A2 A3 E2 V B1 B2 B3 E1. assert (rd (mdate t2) = rd (mdate t')) by lia. assert (mdate t2 = mdate t') by (apply rd_inj; assumption).
    destruct t2 as [d2 h2 m2 s2], t' as [d3 h3 m3 s3]. cbn [Spec.mdate Spec.mhour Spec.mmin Spec.msec] in *. subst d3. f_equal; lia. }
  subst t2. auto.
Qed.
Print Assumptions C23_half_day.

Example C23_case : exists r, let t := Moment (Cal 2024 1 31) 9 15 0 in
  real_instant t 3 /\ deadline_phrase (to_lower (bs "Within  a few months")) (bs "a few") (bs "months") /\ spells (bs "a few") (Whole 3) /\ In ("months", UMonth) full_units /\
  deadline_target t (Whole 3) UMonth (Cal 2024 4 30) /\ real_date (Cal 2024 4 30) /\
  x_res (execute strict_env deadline gwords_init (bs "Within  a few months") (ptime_of t 3)) = Ret [r] /\ toDate r = Ret (bs "2024-Apr-30 00:00:00").
Proof.
  eexists. cbv zeta. split; [inst|]. split.
  { exists (bs "within"), (bs "  "), (bs " "). split; [reflexivity|]. split; [auto|]. repeat split; try discriminate; repeat constructor. }
  split; [apply (sp_few (bs "a") (bs " ")); [left; reflexivity|repeat constructor|discriminate]|]. split; [cbn; tauto|].
  split; [split; [|lia]; split; [reflexivity|split; [cbn; lia|reflexivity]]|]. split; [inst|]. split; [vm_compute; reflexivity|]. vm_compute; reflexivity.
Qed.

(** C24 is false: thirteen hours after noon is rendered as one o'clock in the morning of the same day. *)
Theorem C24_clock_deadline_refuted : exists r, let t := Moment (Cal 2024 1 2) 12 0 0 in
  real_instant t 0 /\ seconds_after (13 * 3600) t (Moment (Cal 2024 1 3) 1 0 0) /\
  x_res (execute strict_env deadline gwords_init (bs "in 13 hours") (ptime_of t 0)) = Ret [r] /\ toDate r = Ret (bs "2024-Jan-02 01:00:00").
Proof. eexists. cbv zeta. split; [inst|]. split; [concrete|]. split; [vm_compute; reflexivity|]. vm_compute; reflexivity. Qed.
Print Assumptions C24_clock_deadline_refuted.

(** What holds for every such phrase (up to 2^24 units): one result; its clock time is that of the moment [t'] named, its date is the
    reference date, so the result denotes [t'] exactly when midnight is not crossed.  (Missing: the date when it is.) *)
Theorem C24_clock_deadline_partial : forall e text t us n q w u secs t', real_instant t us ->
  deadline_phrase (to_lower text) n (bs w) -> spells n q -> In (w, u) full_units -> u <> UDay -> deadline_seconds q u = Some secs ->
  (forall k, q = Whole k -> k <= 2 ^ 24) -> seconds_after secs t t' ->
  exists res, x_res (execute e deadline gwords_init text (ptime_of t us)) = Ret [res] /\ r_text res = to_lower text /\ r_index res = 0 /\ has_end res = false /\
    date_implied (r_start res) (mdate t) /\ clock_implied (r_start res) t' /\ untouched [WDay; TzOffset] (r_start res) /\
    (mdate t' = mdate t <-> denotes (r_start res) t').
Proof.
  intros e text t us n q w u secs t' H Ph Sq Iw Nu Ds Hk Sa.
  assert (Iu : In (bs w) (map bs all_units)). { apply in_map. apply in_or_app. left. apply (in_map fst) in Iw. exact Iw. }
  assert (F : forall w' k, bs w = bs w' -> In (w', k) full_units -> fits t q k).
  { intros w' k E I'. symmetry in E. rewrite (same_unit _ _ _ _ E Iw I').
    destruct u, q as [n'|]; cbn [deadline_seconds fits] in *; try discriminate; try congruence; try (exact I); specialize (Hk n' eq_refl); lia. }
  destruct (deadline_alone e text t us n q (bs w) H Ph Sq Iu) as (res & X & Tx & Ix & En & U & M & _); [intros k E; specialize (Hk k E); unfold INT_MAX; lia|exact F|].
  exists res. specialize (M w u eq_refl Iw). do 4 (split; [assumption|]).
  assert (D : date_implied (r_start res) (mdate t) /\ clock_implied (r_start res) t').
  { destruct u, q as [n'|]; cbn [deadline_seconds deadline_means] in *; try discriminate; try congruence; destruct M as (secs' & E & _ & D & C);
      try specialize (Hk n' eq_refl); injection Ds as <-; (split; [exact D|]); apply C; rewrite ?(E Hk), ?E; rewrite ?Z.mul_1_l; exact Sa. }
  destruct D as [D C]. do 3 (split; [assumption|]).
  destruct D as ((_ & _ & D1) & (_ & _ & D2) & (_ & _ & D3)). destruct C as ((_ & _ & C1) & (_ & _ & C2) & (_ & _ & C3)). cbn [api_get] in *. split.
  - intros E. unfold denotes. rewrite E. repeat split; assumption.
  - intros (A & B & C' & _). destruct (mdate t'), (mdate t); cbn in *; congruence.
Qed.
Print Assumptions C24_clock_deadline_partial.

Example C24_case : exists r, let t := Moment (Cal 2024 1 2) 12 0 0 in
  deadline_phrase (to_lower (bs "in 90 Minutes")) (bs "90") (bs "minutes") /\ spells (bs "90") (Whole 90) /\ deadline_seconds (Whole 90) UMinute = Some 5400 /\
  seconds_after 5400 t (Moment (Cal 2024 1 2) 13 30 0) /\
  x_res (execute strict_env deadline gwords_init (bs "in 90 Minutes") (ptime_of t 0)) = Ret [r] /\ toDate r = Ret (bs "2024-Jan-02 13:30:00").
Proof.
  eexists. cbv zeta. split.
  { exists (bs "in"), (bs " "), (bs " "). split; [reflexivity|]. split; [auto|]. repeat split; try discriminate; repeat constructor. }
  split; [apply (sp_digits (bs "90")); [repeat constructor|discriminate]|]. split; [reflexivity|]. split; [concrete|]. split; [vm_compute; reflexivity|]. vm_compute; reflexivity.
Qed.

(** C25 is false: "in 2 hrs" adds nothing, while "in 2 hours" adds two hours. *)
Theorem C25_abbreviations_refuted : exists r1 r2, let t := Moment (Cal 2024 1 2) 12 0 0 in
  x_res (execute strict_env deadline gwords_init (bs "in 2 hours") (ptime_of t 0)) = Ret [r1] /\ toDate r1 = Ret (bs "2024-Jan-02 14:00:00") /\
  x_res (execute strict_env deadline gwords_init (bs "in 2 hrs") (ptime_of t 0)) = Ret [r2] /\ toDate r2 = Ret (bs "2024-Jan-02 12:00:00").
Proof.
  do 2 eexists. cbv zeta. split; [vm_compute; reflexivity|]. split; [vm_compute; reflexivity|]. split; [vm_compute; reflexivity|]. vm_compute; reflexivity.
Qed.
Print Assumptions C25_abbreviations_refuted.

(** What the abbreviations do, for every phrase: they are accepted, and the result is the reference moment itself whatever the amount. *)
Theorem C25_abbreviations_partial : forall e text t us n q w, real_instant t us ->
  deadline_phrase (to_lower text) n (bs w) -> spells n q -> In w abbreviations -> (forall k, q = Whole k -> k <= INT_MAX) ->
  exists res, x_res (execute e deadline gwords_init text (ptime_of t us)) = Ret [res] /\ r_text res = to_lower text /\ denotes (r_start res) t.
Proof.
  intros e text t us n q w H Ph Sq Iw Hk.
  assert (Iu : In (bs w) (map bs all_units)). { apply in_map. apply in_or_app. right. exact Iw. }
  destruct (deadline_alone e text t us n q (bs w) H Ph Sq Iu Hk) as (res & X & Tx & Ix & En & U & _ & A).
  { intros w' k E I'. exfalso. apply (full_not_abbr _ _ I'). rewrite <- E. apply in_map. exact Iw. }
  exists res. split; [exact X|]. split; [exact Tx|].
  destruct (A (in_map bs _ _ Iw)) as [((_ & _ & D1) & (_ & _ & D2) & (_ & _ & D3)) ((_ & _ & C1) & (_ & _ & C2) & (_ & _ & C3))].
  cbn [api_get] in *. repeat split; assumption.
Qed.
Print Assumptions C25_abbreviations_partial.

(** C26 is false. *)
Theorem C26_deadline_throws_refuted : let t := Moment (Cal 2024 1 2) 12 0 0 in real_instant t 0 /\
  x_res (execute strict_env deadline gwords_init (bs "in 4000000 days") (ptime_of t 0)) = Throw OutOfRange.
Proof. cbv zeta. split; [inst|]. vm_compute; reflexivity. Qed.
Print Assumptions C26_deadline_throws_refuted.

Lemma spells_small n k : spells n (Whole k) -> (digits n -> (List.length n <= 3)%nat) -> 0 <= k <= 999.
Proof.
  intros S Hd. inversion S as [w k' I E1 E2|w D N E1 E2|a A E1 E2|a sp A B N E1 E2| |]; subst.
  - cbn in I. repeat (destruct I as [I|I]; [injection I as <- <-; lia|]). contradiction.
  - pose proof (decimal_bounds n D) as B. specialize (Hd D).
    assert (10 ^ Z.of_nat (List.length n) <= 10 ^ 3) by (apply Z.pow_le_mono_r; lia). lia.
  - lia.
  - lia.
Qed.
Lemma early_fits t q u : real_moment t -> cy (mdate t) <= 9000 -> (forall k, q = Whole k -> 0 <= k <= 999) -> fits t q u.
Proof.
  intros R Hy Hq. pose proof (proj1 R) as Rt. pose proof (real_range _ Rt) as Rg.
  assert (Up : dn_of (mdate t) <= HI - 300000).
  { destruct Rt as [V _]. pose proof (rd_le_year _ V) as [_ Q]. pose proof (dby_le (cy (mdate t) + 1) 9001 ltac:(lia)) as Q'.
    unfold dn_of, JDN0. change (days_before_year 9001) with 3287182 in Q'. unfold HI. lia. }
  assert (Da : forall n, 0 <= n <= 10000 -> exists c, real_date c /\ days_after n (mdate t) c).
  { intros n Hn. destruct (days_after_real n (mdate t) (proj1 Rt)) as (c & Hc); [unfold LO, HI in *; lia|]. exists c. tauto. }
  assert (Ma : forall n, 0 <= n <= 11988 -> real_date (shift_months (mdate t) n)).
  { intros n Hn. split; [apply shift_months_valid; apply Rt|]. destruct (shift_months_spec (mdate t) n) as (E & B & _). destruct Rt as [[V _] Y]. unfold in_range_year in *. lia. }
  destruct u, q as [k|]; cbn [fits deadline_target]; try specialize (Hq k eq_refl); try lia; try exact I; try (apply Da; lia).
  - destruct (Da 0 ltac:(lia)) as (c0 & _). destruct (Da 1 ltac:(lia)) as (c1 & R1 & D1).
    destruct R as (_ & B1 & B2 & B3). destruct (Z.ltb_spec (mhour t) 12).
    + exists (Moment (mdate t) (mhour t + 12) (mmin t) (msec t)). unfold real_moment, seconds_after, sec_count; cbn [Spec.mdate Spec.mhour Spec.mmin Spec.msec]. repeat split; try apply Rt; lia.
    + exists (Moment c1 (mhour t - 12) (mmin t) (msec t)). destruct D1 as [V1 D1]. unfold real_moment, seconds_after, sec_count; cbn [Spec.mdate Spec.mhour Spec.mmin Spec.msec]. repeat split; try apply R1; try apply V1; lia.
  - exists (shift_months (mdate t) k). split; [apply Ma; lia|]. split; [apply shift_months_spec|lia].
  - exists (shift_months (mdate t) (12 * k)). split; [apply Ma; lia|]. split; [apply shift_months_spec|lia].
  - exists (shift_months (mdate t) 6). split; [apply Ma; lia|]. apply shift_months_spec.
Qed.

(** What holds: with numbers of at most three digits and a reference up to the year 9000 it returns, on every text.
    (Missing: larger numbers, where the arithmetic leaves Boost's calendar.) *)
Theorem C26_deadline_returns_partial : forall e text t us, real_instant t us -> cy (mdate t) <= 9000 ->
  (forall w, occurs w text -> digits w -> (List.length w <= 3)%nat) ->
  exists rs, x_res (execute e deadline gwords_init text (ptime_of t us)) = Ret rs.
Proof.
  intros e text t us H Hy Hd.
  assert (Hd' : forall w, occurs w (to_lower text) -> digits w -> (List.length w <= 3)%nat).
  { intros w (a & b & E) D. unfold to_lower in E. apply map_eq_app in E as (a' & x & -> & _ & E). apply map_eq_app in E as (w' & b' & -> & Ew & _).
    rewrite <- Ew, map_length. apply Hd; [exists a', b'; reflexivity|]. subst w. clear - D. induction w' as [|c w IH]; [constructor|]. inversion D as [|? ? Hc Dw]; subst. constructor; [|apply IH; exact Dw].
    clear - Hc. destruct c as [b0 b1 b2 b3 b4 b5 b6 b7]; destruct b0, b1, b2, b3, b4, b5, b6, b7; vm_compute in Hc |- *; congruence. }
  apply (execute_total_pure e deadline_pattern deadline_extract deadline_re); [apply Nat.leb_le; vm_compute; reflexivity|exact deadline_compile|].
  intros off m idx S L.
  destruct (deadline_match _ _ S) as (pre & post & kw & s1 & n & s2 & u & E & _ & Em & Lk & B1 & N1 & Ln & B2 & N2 & Lu & G3 & G4).
  assert (Lm : low (m_str m)) by (rewrite E in L; eapply low_part; exact L). rewrite Em in Lm.
  apply low_app in Lm as [Lok Lm]. apply low_app in Lm as [_ Lm]. apply low_app in Lm as [Lon Lm]. apply low_app in Lm as [_ Lou].
  destruct (deadline_amount_spec n Lon Ln) as (q & Sq & A). pose proof (deadline_unit u Lou Lu) as Iu.
  assert (On : digits n -> (List.length n <= 3)%nat).
  { intros D. apply Hd'; [|exact D]. exists (firstn off (to_lower text) ++ pre ++ kw ++ s1), (s2 ++ u ++ post).
    rewrite <- (firstn_skipn off (to_lower text)) at 1. rewrite E, Em, <- !app_assoc. reflexivity. }
  assert (Hq : forall k, q = Whole k -> 0 <= k <= 999) by (intros k ->; eapply spells_small; eassumption).
  assert (Q : deadline_amount gwords_init n = Some (num_of q)).
  { destruct q as [k|]; cbn [amount_ok num_of] in *; [|exact A]. destruct A as (Hk & [A|(_ & _ & A)]); [exact A|]. specialize (Hq k eq_refl). unfold INT_MAX in A. lia. }
  destruct (deadline_rest_returns t us q u idx (m_str m) H Iu) as [res R]; [intros k Ek; specialize (Hq k Ek); lia|intros; apply early_fits; [apply H|exact Hy|exact Hq]|].
  exists res. split; [unfold deadline_extract; rewrite G3, Q, G4, pt_date_of by exact H; cbn [bind grp]; exact R|]. left.
  eapply said_possible; [exact H|exact Iu|]. eapply deadline_rest_said; [exact H|exact Iu| |exact R]. intros k Ek; specialize (Hq k Ek); lia.
  Unshelve. exact n.
Qed.
Print Assumptions C26_deadline_returns_partial.

Example C26_case : forall w, occurs w (bs "in 999 years") -> digits w -> (List.length w <= 3)%nat.
Proof.
  intros w (a & b & E) D. destruct (Nat.le_gt_cases (List.length w) 3) as [L|L]; [exact L|exfalso].
  assert (La : (List.length a + List.length w <= 12)%nat) by (apply (f_equal (@List.length ascii)) in E; rewrite !app_length in E; cbn in E; lia).
  do 4 (destruct w as [|? w]; [cbn in L; lia|]). inversion D as [|? ? D1 D']; subst. inversion D' as [|? ? D2 D'']; subst. inversion D'' as [|? ? D3 D3']; subst. inversion D3' as [|? ? D4 _]; subst.
  clear D D' D'' D3' L.
  do 10 (destruct a as [|? a]; [cbn in E; repeat (injection E as -> E || idtac); injection E; intros; subst; cbn in D1, D2, D3, D4; discriminate|]). cbn in La. lia.
Qed.
