(** * The refiners always return (C81), and the program always answers a sensible text (C82) *)
From Verif Require Import Base Regex RegexParse Calendar Components Utils Execute Spec View ParserSpec PhraseSpec WeekSpec ClockSpec MiddleSpec SenseSpec CalendarCycle CalendarFacts RegexFacts ResultFacts
  ExecuteFacts ParserRe MatchFacts LocateFacts HistoryFacts ParserFacts CasualFacts NumberFacts DeadlineFacts ISOFacts HolidayFacts MonthFacts WeekFacts Refiners Main MainFacts TotalFacts ISOShape.
From Verif Require Import P_CasualDate P_CasualTime P_DayOfWeek P_Deadline P_ISO P_MonthName P_MiddleEndian P_TimeAgo P_TimeLater P_TimeExpression P_Holiday P_Week
  Prop_Execute Prop_Casual Prop_Deadline Prop_Dow Prop_Holiday Prop_ISO Prop_Month Prop_Ago Prop_Week Prop_Clock MiddleMean Prop_Middle Prop_Tags Prop_Main Prop_Refine Prop_Dates Prop_Format Prop_Weeks.
From Coq Require Import ZifyBool ZifyNat ZifyN Permutation.
Open Scope string_scope.
Open Scope list_scope.
Open Scope Z_scope.

(** ** One result *)
Definition usual (r : result) : Prop := TotalFacts.good (r_start r) /\ getTimeZoneOffset (r_start r) = 0 /\ has_end r = false.
Lemma good_at p c h mi s : on_date p c -> real_date c -> 1401 <= cy c <= 9998 -> getHour p = h -> getMinute p = mi -> getSeconds p = s -> 0 <= h < 48 -> 0 <= mi < 60 -> 0 <= s < 60 -> TotalFacts.good p.
Proof. intros D R Y A B C. exists c. split; [exact D|]. split; [exact R|]. split; [exact Y|]. lia. Qed.
Lemma good_day p c : on_date p c -> real_date c -> 1401 <= cy c <= 9998 -> untouched [Hour; Min; Sec] p -> TotalFacts.good p.
Proof.
  intros D R Y U. eapply (good_at p c 0 0 0); try assumption; try lia; [apply (unset_in Hour _ _ U)|apply (unset_in Min _ _ U)|apply (unset_in Sec _ _ U)]; cbn; tauto.
Qed.
(** days near a reference between 1421 and 8999 *)
Lemma near_year c c' n : valid c -> 1421 <= cy c <= 8999 -> days_after n c c' -> -6993 <= n <= 6993 -> 1401 <= cy c' <= 9998.
Proof.
  intros V Y (V' & E) B. pose proof (rd_le_year _ V) as [Q1 Q2]. pose proof (rd_le_year _ V') as [P1 P2].
  pose proof (dby_le 1421 (cy c) ltac:(lia)) as Q3. pose proof (dby_le (cy c + 1) 9000 ltac:(lia)) as Q4.
  change (days_before_year 1421) with 518644 in Q3. change (days_before_year 9000) with 3286817 in Q4.
  split.
  - destruct (Z_lt_ge_dec (cy c') 1401) as [L|]; [|lia]. pose proof (dby_le (cy c' + 1) 1401 ltac:(lia)) as P3. change (days_before_year 1401) with 511339 in P3. lia.
  - destruct (Z_lt_ge_dec 9998 (cy c')) as [L|]; [|lia]. pose proof (dby_le 9999 (cy c') ltac:(lia)) as P3. change (days_before_year 9999) with 3651694 in P3. lia.
Qed.
Lemma near_months c c' n : 1 <= cm c <= 12 -> 1421 <= cy c <= 8999 -> months_after n c c' -> 0 <= n <= 11988 -> 1401 <= cy c' <= 9998.
Proof. intros V Y (E & M & _) B. lia. Qed.

Lemma parser_dec p : In p all_parsers -> (p = month_name \/ p = time_expression) \/ (p <> month_name /\ p <> time_expression).
Proof. intros I. cbn in I. repeat destruct I as [<-|I]; try contradiction; auto; right; split; intros E; apply (f_equal p_pattern) in E; vm_compute in E; discriminate. Qed.
Lemma occurs_match off (tx pre s post : bytes) : skipn off tx = pre ++ s ++ post -> occurs s tx.
Proof. intros E. exists (firstn off tx ++ pre), post. rewrite <- (firstn_skipn off tx) at 1. rewrite E, <- !app_assoc. reflexivity. Qed.
Lemma words_small w k : In (w, k) number_words -> 0 <= k <= 12.
Proof. intros I. cbn in I. decompose [or] I; try contradiction; match goal with E : (_, _) = (_, _) |- _ => injection E as <- <- end; lia. Qed.

(** ** What every parser leaves behind *)
Section One.
  Variables (e : env) (text : bytes) (t : moment) (us : Z).
  Hypothesis He : benign e.
  Hypothesis H : real_instant t us.
  Hypothesis Hy : 1421 <= cy (mdate t) <= 8999.
  Let ref := ptime_of t us.
  Let Hs : sane e := benign_sane e He.
  Let V : valid (mdate t) := proj1 (proj1 (proj1 H)).
  Let Rt : real_date (mdate t) := proj1 (proj1 H).

  Lemma usual_casual_time rs res : alone e casual_time text ref = Ret rs -> In res rs -> usual res.
  Proof.
    intros X I. destruct (C20_casual_times e gwords_init text t us H) as (rs' & X' & C). unfold alone, ref in X. rewrite X in X'. apply ret_same in X'. subst rs'. destruct (C res Hs I) as (this & sp & w & h & _ & _ & _ & Iw & D & _ & (_ & _ & Eh) & (_ & _ & Em) & U & En & _).
    pose proof H as ((R & H1 & H2 & H3) & _). pose proof (unset_in Sec _ _ U ltac:(cbn; tauto)) as Es. cbn [api_get] in *. split; [|split; [apply (zone_unset _ _ U); cbn; tauto|exact En]].
    apply date_of_implied in D. eapply good_at; [exact D|exact R|lia|exact Eh|exact Em|exact Es| |lia|lia]. cbn in Iw. decompose [or] Iw; try contradiction; match goal with E : (_, _) = (_, _) |- _ => injection E as <- <- end; lia.
  Qed.
  Lemma usual_casual_date rs res : alone e casual_date text ref = Ret rs -> In res rs -> usual res.
  Proof.
    intros X I. destruct (C18_casual_dates e gwords_init text t us rs res Hs H X I) as (En & U & C). cbv zeta in *. pose proof H as ((R & H1 & H2 & H3) & _).
    split; [|split; [apply (zone_unset _ _ U); cbn; tauto|exact En]].
    assert (Y : forall c, (if 6 <? mhour t then days_after (-1) (mdate t) c else c = mdate t) \/ days_after (-1) (mdate t) c \/ (if 0 <? mhour t then days_after 1 (mdate t) c else c = mdate t) -> 1401 <= cy c <= 9998).
    { intros c [Q|[Q|Q]]; [destruct (6 <? mhour t)| |destruct (0 <? mhour t)]; try (eapply near_year; [exact V|exact Hy|exact Q|lia]); subst c; lia. }
    assert (Y0 : 1401 <= cy (mdate t) <= 9998) by lia.
    destruct C as [(_ & D & (_ & A1) & (_ & A2) & (_ & A3))|[(_ & D & Q)|[(_ & D & (_ & _ & A1) & Q)|[(sp & c & _ & _ & Rc & Dc & D & (_ & _ & A1) & Q)|[(sp & c & _ & _ & Rc & Dc & D & (_ & _ & A1) & Q)|(sp & c & _ & _ & Rc & Dc & D & Q)]]]]]; apply date_of_certain in D; cbn [api_get] in *.
    - eapply good_at; [exact D|exact R|exact Y0|exact A1|exact A2|exact A3|lia..].
    - eapply good_day; [exact D|exact R|exact Y0|exact Q].
    - eapply good_at; [exact D|exact R|exact Y0|exact A1|apply (unset_in Min _ _ Q); cbn; tauto|apply (unset_in Sec _ _ Q); cbn; tauto|lia..].
    - eapply good_at; [exact D|exact Rc|apply Y; tauto|exact A1|apply (unset_in Min _ _ Q); cbn; tauto|apply (unset_in Sec _ _ Q); cbn; tauto|lia..].
    - eapply good_at; [exact D|exact Rc|apply Y; tauto|exact A1|apply (unset_in Min _ _ Q); cbn; tauto|apply (unset_in Sec _ _ Q); cbn; tauto|lia..].
    - eapply good_day; [exact D|exact Rc|apply Y; tauto|exact Q].
  Qed.
  Lemma usual_holiday rs res : alone e holiday text ref = Ret rs -> In res rs -> usual res.
  Proof.
    intros X I.
    destruct (results_from_pure e holiday_pattern holiday_extract gwords_init text _ rs res holiday_re Hs in_holiday holiday_compile X I) as (off & m & r0 & S & L & Xr & P & ->).
    destruct (holiday_by_pick e gwords_init (skipn off (to_lower text)) m t us (Z.of_nat (off + m_pos m)) H) as (r1 & X1 & (_ & _ & En) & Pk). unfold ref in Xr. rewrite X1 in Xr. apply ret_same in Xr. subst r1.
    assert (Q : exists c, real_date c /\ cy c = cy (mdate t) /\ date_certain (r_start r0) c /\ certain Hour 0 (r_start r0) /\ certain Min 0 (r_start r0) /\ untouched [Sec; TzOffset] (r_start r0)).
    { destruct (pick (m_str m)) as [r| |].
      - destruct Pk as (c & Rc & F & D & _ & A & B & U). exists c. split; [exact Rc|]. split; [|auto]. apply F.
      - destruct Pk as (d0 & (_ & _ & B) & D & _ & A & A' & U). exists (Cal (cy (mdate t)) 11 (d0 + 2)). split; [|auto]. split; [apply nov_valid; lia|apply Rt].
      - rewrite (nothing_impossible _ Pk) in P. discriminate. }
    destruct Q as (c & Rc & Yc & D & (_ & Eh) & (_ & Em) & U). split; [|split; [apply (zone_unset _ _ U); cbn; tauto|exact En]].
    apply date_of_certain in D. eapply good_at; [exact D|exact Rc|lia|exact Eh|exact Em|apply (unset_in Sec _ _ U); cbn; tauto|lia..].
  Qed.

  (** the rest needs a sensible text *)
  Hypothesis Se : sensible (to_lower text).
  Hypothesis Hn : Z.of_nat (List.length text) < 2 ^ 32.
  Lemma plain_text : ~ In backslash text.
  Proof. intros I. apply (sn_slash _ Se). unfold to_lower. apply (in_map lower) in I. exact I. Qed.
  Lemma located p rs res : In p all_parsers -> alone e p text ref = Ret rs -> In res rs -> occurs (r_text res) (to_lower text).
  Proof.
    intros I X Ir. assert (Fo : forall n k (tx w : bytes), firstn n (skipn k tx) = w -> occurs w tx).
    { intros n k tx w <-. exists (firstn k tx), (skipn n (skipn k tx)). rewrite firstn_skipn, firstn_skipn. reflexivity. }
    destruct (parser_dec p I) as [D|D].
    - destruct (C14_located_partial e p gwords_init text ref rs res Hs D Hn X Ir) as (r & off & m & _ & _ & E). eapply Fo; exact E.
    - assert (D1 : p <> month_name) by tauto. assert (D2 : p <> time_expression) by tauto. pose proof (C14_located e p gwords_init text ref rs res Hs I D1 D2 Hn X Ir) as E. eapply Fo; exact E.
  Qed.
  Lemma amount_small kw s1 n tl : kw = bs "in" \/ kw = bs "within" \/ kw = bs "last" \/ kw = bs "next" -> blanks s1 -> s1 <> [] -> digits n -> occurs (kw ++ s1 ++ n ++ tl) (to_lower text) -> decimal n <= 999.
  Proof.
    intros K B N D (a & b & E). pose proof (decimal_bounds _ D) as [_ Q]. assert (L : (List.length n <= 3)%nat).
    { destruct K as [-> | [-> | [-> | ->]]].
      - apply (sn_amount _ Se (bs "in") s1); auto; [cbn; tauto|]. exists a, (tl ++ b). rewrite E, <- !app_assoc. reflexivity.
      - apply (sn_amount _ Se (bs "in") s1); auto; [cbn; tauto|]. exists (a ++ bs "with"), (tl ++ b). rewrite E, <- !app_assoc. reflexivity.
      - apply (sn_amount _ Se (bs "last") s1); auto; [cbn; tauto|]. exists a, (tl ++ b). rewrite E, <- !app_assoc. reflexivity.
      - apply (sn_amount _ Se (bs "next") s1); auto; [cbn; tauto|]. exists a, (tl ++ b). rewrite E, <- !app_assoc. reflexivity. }
    assert (10 ^ Z.of_nat (List.length n) <= 10 ^ 3) by (apply Z.pow_le_mono_r; lia). lia.
  Qed.
  Lemma usual_week rs res : alone e week text ref = Ret rs -> In res rs -> usual res.
  Proof.
    intros X I. destruct (C38_every_week e [] text t us rs res Hs ltac:(intros c []) H X I) as (En & U & C).
    assert (U' : untouched [Hour; Min; Sec] (r_start res)) by (apply (untouched_sub _ _ _ U); cbn; tauto).
    split; [|split; [apply (zone_unset _ _ U); cbn; tauto|exact En]].
    destruct C as [(sp & _ & _ & D)|(kw & s & s1 & n & k & s2 & ws & c & Et & Wy & B1 & N1 & Sk & _ & _ & Dc & Rc & D)]; apply date_of_implied in D.
    - eapply good_day; [exact D|exact Rt|lia|exact U'].
    - eapply good_day; [exact D|exact Rc| |exact U']. eapply near_year; [exact V|exact Hy|exact Dc|].
      assert (Bk : 0 <= k <= 999); [|destruct Wy as [[_ ->]|[_ ->]]; lia].
      pose proof (located week rs res in_week X I) as O. rewrite Et in O.
      destruct Sk as [|n' Dn Nn|n' v Iv|]; [lia| |pose proof (words_small _ _ Iv); lia|lia].
      pose proof (decimal_bounds _ Dn). split; [lia|]. eapply amount_small; [|exact B1|exact N1|exact Dn|exact O]. destruct Wy as [[-> _]|[-> _]]; tauto.
  Qed.

  Lemma amount_999 kw s1 n s2 u q : kw = bs "in" \/ kw = bs "within" -> blanks s1 -> s1 <> [] -> spells n q -> occurs (kw ++ s1 ++ n ++ s2 ++ u) (to_lower text) -> forall k, q = Whole k -> 0 <= k <= 999.
  Proof.
    intros K B N Sq O k ->. eapply spells_small; [exact Sq|]. intros D. destruct O as (a & b & E). destruct K as [-> | ->].
    - apply (sn_amount _ Se (bs "in") s1); auto; [cbn; tauto|]. exists a, (s2 ++ u ++ b). rewrite E, <- !app_assoc. reflexivity.
    - apply (sn_amount _ Se (bs "in") s1); auto; [cbn; tauto|]. exists (a ++ bs "with"), (s2 ++ u ++ b). rewrite E, <- !app_assoc. reflexivity.
  Qed.
  Lemma returns_deadline : exists rs, alone e deadline text ref = Ret rs.
  Proof.
    apply (execute_total_pure e deadline_pattern deadline_extract deadline_re); [apply Nat.leb_le; vm_compute; reflexivity|exact deadline_compile|].
    intros off m idx S L.
    destruct (deadline_match _ _ S) as (pre & post & kw & s1 & n & s2 & u & E & _ & Em & Lk & B1 & N1 & Ln & B2 & N2 & Lu & G3 & G4).
    assert (Lm : low (m_str m)) by (rewrite E in L; eapply low_part; exact L). rewrite Em in Lm.
    apply low_app in Lm as [Lok Lm]. apply low_app in Lm as [_ Lm]. apply low_app in Lm as [Lon Lm]. apply low_app in Lm as [_ Lou].
    destruct (deadline_amount_spec n Lon Ln) as (q & Sq & A). pose proof (deadline_unit u Lou Lu) as Iu. pose proof (kw_words kw Lok Lk) as Ik.
    assert (Hq : forall k, q = Whole k -> 0 <= k <= 999).
    { eapply amount_999; [exact Ik|exact B1|exact N1|exact Sq|]. rewrite <- Em. exact (occurs_match _ _ _ _ _ E). }
    assert (Q : deadline_amount gwords_init n = Some (num_of q)).
    { destruct q as [k|]; cbn [amount_ok num_of] in *; [|exact A]. destruct A as (Hk & [A|(_ & _ & A)]); [exact A|]. specialize (Hq k eq_refl). unfold INT_MAX in A. lia. }
    destruct (deadline_rest_returns t us q u idx (m_str m) H Iu) as [res R]; [intros k Ek; specialize (Hq k Ek); lia|intros; apply early_fits; [apply H|lia|exact Hq]|].
    exists res. split; [unfold deadline_extract, ref; rewrite G3, Q, G4, pt_date_of by exact H; cbn [bind grp]; exact R|]. left.
    eapply said_possible; [exact H|exact Iu|]. eapply deadline_rest_said; [exact H|exact Iu| |exact R]. intros k Ek; specialize (Hq k Ek); lia.
    Unshelve. exact n.
  Qed.
  Lemma good_clock p c t' : on_date p c -> real_date c -> 1401 <= cy c <= 9998 -> clock_implied p t' -> 0 <= mhour t' < 24 -> 0 <= mmin t' < 60 -> 0 <= msec t' < 60 -> TotalFacts.good p.
  Proof. intros D R Y ((_ & _ & A) & (_ & _ & B) & (_ & _ & C)) H1 H2 H3. eapply good_at; [exact D|exact R|exact Y|exact A|exact B|exact C|lia..]. Qed.
  Lemma good_days p c n : days_after n (mdate t) c -> -6993 <= n <= 6993 -> day_result p c -> TotalFacts.good p.
  Proof. intros Dc B (R & D & U). apply date_of_implied in D. eapply good_day; [exact D|exact R| |exact U]. eapply near_year; [exact V|exact Hy|exact Dc|exact B]. Qed.
  Lemma good_months p c n : months_after n (mdate t) c -> 0 <= n <= 11988 -> day_result p c -> TotalFacts.good p.
  Proof. intros Dc B (R & D & U). apply date_of_implied in D. eapply good_day; [exact D|exact R| |exact U]. eapply near_months; [apply V|exact Hy|exact Dc|exact B]. Qed.
  Lemma usual_deadline rs res : alone e deadline text ref = Ret rs -> In res rs -> usual res.
  Proof.
    intros X I. pose proof H as (Rm & _). pose proof (located deadline rs res in_deadline X I) as Oc.
    destruct (results_from_pure e deadline_pattern deadline_extract gwords_init text _ rs res deadline_re Hs in_deadline deadline_compile X I) as (off & m & r0 & S & L & Xr & P & ->).
    destruct (deadline_extracted e _ _ _ _ _ _ H L S Xr P) as (kw & s1 & n & s2 & u & q & Em & Ik & B1 & N1 & Sq & _ & _ & Iu & (U & F & A) & Et & _ & En).
    cbn [r_text res_copy] in Oc. rewrite Et, Em in Oc. pose proof (amount_999 kw s1 n s2 u q Ik B1 N1 Sq Oc) as Hq.
    unfold usual. cbn [r_start res_copy]. split; [|split; [apply (zone_unset _ _ U); cbn; tauto|exact En]].
    pose proof Rm as (_ & T1 & T2 & T3). assert (Y0 : 1401 <= cy (mdate t) <= 9998) by lia.
    apply in_map_iff in Iu as (w & <- & Iw). apply in_app_or in Iw as [Iw|Iw].
    - apply in_map_iff in Iw as ((w' & k) & E' & Ik'). cbn [fst] in E'. subst w'. specialize (F w k eq_refl Ik'). unfold deadline_means in F.
      assert (Q : forall secs, 0 <= secs -> date_implied (r_start r0) (mdate t) /\ (forall t', seconds_after secs t t' -> clock_implied (r_start r0) t') -> TotalFacts.good (r_start r0)).
      { intros secs Hsec (D & C). destruct (some_moment t secs Rm Hsec) as (t' & St). specialize (C t' St). apply date_of_implied in D. destruct St as (_ & C1 & C2 & C3 & _).
        eapply good_clock; [exact D|exact Rt|exact Y0|exact C|assumption..]. }
      destruct k, q as [k'|]; cbn [deadline_means] in F; try specialize (Hq _ eq_refl);
      first [ solve [destruct F as (c & Dc & D); first [eapply good_days; [exact Dc|lia|exact D]|eapply good_months; [exact Dc|lia|exact D]]]
            | solve [destruct F as (secs & _ & Hsec & D & C); eapply Q; [exact Hsec|split; [exact D|exact C]]]
            | idtac].
      destruct F as (t' & (Rt' & U1 & U2 & U3) & (_ & _ & _ & _ & St) & D & (_ & _ & A1) & (_ & _ & A2) & A3). apply date_of_implied in D. cbn [api_get] in *.
      eapply good_at; [exact D|exact Rt'| |exact A1|exact A2|apply (unset_in Sec _ _ A3); cbn; tauto|lia..].
      eapply (near_year _ _ (rd (mdate t') - rd (mdate t))); [exact V|exact Hy|split; [apply Rt'|lia]|]. unfold sec_count in St. lia.
    - destruct (A (in_map bs _ _ Iw)) as [D C]. apply date_of_implied in D. eapply good_clock; [exact D|exact Rt|exact Y0|exact C|assumption..].
  Qed.

  Lemma usual_month rs res : alone e month_name text ref = Ret rs -> In res rs -> usual res.
  Proof.
    intros X I. destruct (C33_every_month_partial e gwords_init text t us rs res Hs H plain_text (sn_may _ Se) X I) as (En & w & m & sp & tail & Mw & Hm & Bs & Et & C).
    pose proof (located month_name rs res in_month_name X I) as O. rewrite Et in O.
    assert (Q : certain Month m (r_start res) /\ implied_is MDay 1 (r_start res) /\ untouched [WDay; Hour; Min; Sec; TzOffset] (r_start res) /\ 1401 <= getYear (r_start res) <= 9998).
    { destruct C as [(_ & A & B & U & (y & (Ny & _) & (_ & _ & Ey)))|(yy & er & sp' & Yt & B' & D & L4 & A & B & U & Y)]; (do 3 (split; [assumption|])).
      - cbn [api_get] in Ey. lia.
      - pose proof (sn_year _ Se w m sp tail yy sp' er Mw Bs Yt B' D L4 O) as Fy. unfold fair_year in Fy. destruct Y as (_ & Y); [intros ->; cbn [year_in_era] in Fy; lia|lia|]. cbn [api_get] in Y. lia. }
    destruct Q as ((_ & A) & (_ & _ & B) & U & Y). cbn [api_get] in *. split; [|split; [apply (zone_unset _ _ U); cbn; tauto|exact En]].
    eapply (good_day _ (Cal (getYear (r_start res)) m 1)); [repeat split; assumption| |exact Y|eapply untouched_sub; [exact U|cbn; tauto]].
    split; [split; cbn [cy cm cd]; [exact Hm|pose proof (month_len_bounds (getYear (r_start res)) m Hm); lia]|unfold in_range_year; cbn [cy]; lia].
  Qed.
  Lemma common_len y m : 1 <= m <= 12 -> month_len 2023 m <= month_len y m.
  Proof. intros Hm. assert (C : m = 1 \/ m = 2 \/ m = 3 \/ m = 4 \/ m = 5 \/ m = 6 \/ m = 7 \/ m = 8 \/ m = 9 \/ m = 10 \/ m = 11 \/ m = 12) by lia. unfold month_len, month_lengths; destruct (is_leap y); decompose [or] C; subst m; vm_compute; congruence. Qed.
  Lemma month_word_bounds w m : month_word w m -> 1 <= m <= 12.
  Proof. intros (s & [[I _]|[I _]]); cbn in I; decompose [or] I; try contradiction; match goal with E : (_, _) = (_, _) |- _ => injection E as <- <- end; lia. Qed.
  Lemma usual_month_day rs res : alone e middle_endian text ref = Ret rs -> In res rs -> usual res.
  Proof.
    intros X I. destruct (C68_month_day_results e gwords_init text t us rs res Hs H X I) as (x & Fx & Hm & Hx & (y & Ym & ((_ & A) & (_ & B) & (_ & C) & _) & U & En)). cbn [api_get] in *.
    pose proof (located middle_endian rs res in_middle_endian X I) as O. destruct (sn_days _ Se _ _ Fx O) as (Nt & Fy). rewrite Nt in En.
    split; [|split; [apply (zone_unset _ _ U); cbn; tauto|exact En]].
    assert (Y : 1401 <= y <= 9998).
    { unfold year_meant in Ym. destruct (md_year x) as [[yy er]|]; [|destruct Ym; lia]. unfold fair_year in Fy. destruct Ym as (Y1 & _). rewrite Y1; [exact Fy|intros ->; cbn [year_in_era] in Fy; lia|lia]. }
    assert (Ld : md_day x <= month_len y (md_month x)).
    { pose proof (common_len y (md_month x) Hm). destruct Fx as (l & mw & sep & dw & sp & rg & yr & Et & _ & Mw & Sp & Dw & _). destruct O as (a & b & O). rewrite Et in O.
      assert (md_day x <= month_len 2023 (md_month x)); [|lia]. eapply (sn_day _ Se); [exact Mw|exact Sp|exact Dw| |exact Hx]. exists (a ++ l), (sp ++ rg ++ yr ++ b). rewrite O, <- !app_assoc. reflexivity. }
    eapply (good_day _ (Cal y (md_month x) (md_day x))); [repeat split; assumption| |exact Y|eapply untouched_sub; [exact U|cbn; tauto]].
    split; [split; cbn [cy cm cd]; [exact Hm|lia]|unfold in_range_year; cbn [cy]; lia].
  Qed.
  Lemma usual_clock rs res : alone e time_expression text ref = Ret rs -> In res rs -> usual res.
  Proof.
    intros X I. pose proof H as (Rm & _). assert (Fe : faithful e) by (intros c; right; apply He).
    destruct (C66_every_time e text t us rs res Hs Fe H X I) as (intro & c1 & k & gap & rest & Et & _ & Cf & Gp & C). pose proof (located time_expression rs res in_time_expression X I) as O. rewrite Et in O.
    pose proof (form_seconds _ _ _ Cf) as Dk.
    assert (Oc : occurs c1 (to_lower text)) by (destruct O as (a & b & O); exists (a ++ intro), (gap ++ rest ++ b); rewrite O, <- !app_assoc; reflexivity).
    assert (Nr : forall k2, to_text rest k2 -> False).
    { intros k2 T. apply (sn_range _ Se c1 k gap rest k2 Cf Gp T). destruct O as (a & b & O). exists (a ++ intro), b. rewrite O, <- !app_assoc. reflexivity. }
    destruct C as [(N & _ & _ & Bs & _)|(h & mi & Ct & C)].
    { exfalso. destruct (sn_clock _ Se c1 k Cf Oc) as (h & mi & Ct); [intros E; rewrite E in Bs; cbn in Bs; lia|]. exact (N h mi Ct). }
    destruct (time_bounds _ _ _ Ct) as (Bh & Bm & Bk).
    assert (Och : forall j v, 0 <= v <= 24 -> 0 <= on_clock j v < 48) by (intros j v B; unfold on_clock; destruct j; try lia; destruct (v =? 12); lia).
    destruct C as [(_ & En & A)|(_ & k2 & h2 & mi2 & Tt & _)]; [|exfalso; exact (Nr _ Tt)].
    pose proof A as ((_ & A1) & (_ & A2) & A3 & D & U). split; [|split; [apply (zone_unset _ _ U); cbn; tauto|exact En]].
    apply date_of_implied in D. cbn [api_get] in *. assert (Sec60 : 0 <= getSeconds (r_start res) < 60).
    { unfold clock_seconds in A3. pose proof (decimal_bounds _ Dk) as Bd. destruct (ck_sec k) as [|c ss]; [destruct A3 as (_ & _ & A3); cbn [api_get] in A3; lia|]. destruct A3 as ((_ & A3) & L). cbn [api_get] in A3. lia. }
    eapply good_at; [exact D|exact Rt|lia|exact A1|exact A2|reflexivity|apply Och; exact Bh|exact Bm|exact Sec60].
  Qed.
  Lemma none_iso rs res : alone e iso text ref = Ret rs -> In res rs -> False.
  Proof.
    intros X I. destruct (C83_every_iso e gwords_init text ref rs res Hs X I) as (yy & mm & dd & k & Et & (Dy & L4 & (Dm & Lm) & _) & _). cbv zeta in *.
    pose proof (located iso rs res in_iso X I) as (a & b & O). rewrite Et in O. unfold iso_text, ymd_text in O.
    apply (sn_range _ Se yy (Clock yy [] [] NoMarker) [] (bs "-" ++ mm) (Clock mm [] [] NoMarker)).
    - exists [], []. split; [cbn [ck_hour]; rewrite !app_nil_r; reflexivity|]. split; [exists (decimal yy); constructor; [exact Dy|cbn [ck_hour]; lia]|]. split; constructor.
    - left. reflexivity.
    - exists [], (bs "-"), [], mm. split; [reflexivity|]. split; [constructor|]. split; [cbn; tauto|]. split; [constructor|]. split; [exact Dm|].
      exists [], []. split; [cbn [ck_hour]; rewrite !app_nil_r; reflexivity|]. split; [exists (decimal mm); constructor; [exact Dm|cbn [ck_hour]; lia]|]. split; constructor.
    - exists a. eexists. rewrite O, <- !app_assoc. cbn [app]. reflexivity.
  Qed.

  Lemma returns_week : exists rs, alone e week text ref = Ret rs.
  Proof.
    apply (C84_week_returns_partial e [] text t us); [intros c []|exact H|lia|]. intros kw s sp n W B N D Nn O.
    assert (Bk : decimal n <= 999). { apply (amount_small kw sp n []); auto; [destruct W as [[-> _]|[-> _]]; tauto|rewrite app_nil_r; exact O]. }
    pose proof (decimal_bounds _ D) as [B0 _]. assert (Y0 : 1401 <= cy (mdate t) <= 9998) by lia.
    assert (Bd : LO <= dn_of (mdate t) + s * (7 * decimal n) <= HI).
    { pose proof (rd_le_year _ V) as [Q1 Q2]. pose proof (dby_le 1421 (cy (mdate t)) ltac:(lia)) as Q3. pose proof (dby_le (cy (mdate t) + 1) 9000 ltac:(lia)) as Q4.
      change (days_before_year 1421) with 518644 in Q3. change (days_before_year 9000) with 3286817 in Q4. unfold dn_of, JDN0, LO, HI. destruct W as [[_ ->]|[_ ->]]; lia. }
    destruct (day_exists (mdate t) (s * (7 * decimal n)) Rt Bd) as (c & Rc & _ & Dc). exists c. auto.
  Qed.
  Lemma near_days : neighbours (mdate t).
  Proof.
    assert (Y0 : 1401 <= cy (mdate t) <= 9998) by lia. pose proof (dn_near _ Rt Y0) as B.
    destruct (day_exists (mdate t) (-1) Rt ltac:(lia)) as (a & Ra & _ & Da). destruct (day_exists (mdate t) 1 Rt ltac:(lia)) as (b & Rb & _ & Db). exists a, b. auto.
  Qed.
  Lemma every_usual p rs res : In p parsers -> alone e p text ref = Ret rs -> In res rs -> usual res.
  Proof.
    intros I X Ir. unfold parsers in I. cbn [In] in I. destruct I as [<-|[<-|[<-|[<-|[<-|[<-|[<-|[<-|[<-|[<-|[<-|[<-|[]]]]]]]]]]]]].
    - exact (usual_casual_time rs res X Ir).
    - exact (usual_deadline rs res X Ir).
    - unfold alone in X. rewrite (C21_weekdays_refuted e gwords_init text ref) in X. apply ret_same in X. subst rs. contradiction.
    - exact (usual_casual_date rs res X Ir).
    - exact (usual_month_day rs res X Ir).
    - unfold alone in X. rewrite (C40_later_never e gwords_init text ref plain_text) in X. cbn [x_res] in X. apply ret_same in X. subst rs. contradiction.
    - exact (usual_month rs res X Ir).
    - unfold alone in X. rewrite (C39_ago_never e gwords_init text ref plain_text) in X. cbn [x_res] in X. apply ret_same in X. subst rs. contradiction.
    - exact (usual_clock rs res X Ir).
    - exfalso. exact (none_iso rs res X Ir).
    - exact (usual_holiday rs res X Ir).
    - exact (usual_week rs res X Ir).
  Qed.
  Lemma every_returns p : In p parsers -> exists rs, alone e p text ref = Ret rs.
  Proof.
    intros I. unfold parsers in I. cbn [In] in I. destruct I as [<-|[<-|[<-|[<-|[<-|[<-|[<-|[<-|[<-|[<-|[<-|[<-|[]]]]]]]]]]]]].
    - destruct (C20_casual_times e gwords_init text t us H) as (rs & X & _). exists rs. exact X.
    - exact returns_deadline.
    - exists []. apply C21_weekdays_refuted.
    - exact (C18_casual_dates_total e gwords_init text t us H near_days Hs).
    - apply (C37_month_day_benign_partial e gwords_init text t us He H); [lia|]. intros mw mo sep dw d Mw Sp Dw O Hd. pose proof (sn_day _ Se mw mo sep dw d Mw Sp Dw O Hd). pose proof (common_len (cy (mdate t)) mo (month_word_bounds _ _ Mw)). lia.
    - exists []. unfold alone. rewrite (C40_later_never e gwords_init text ref plain_text). reflexivity.
    - apply (C34_month_returns_partial e gwords_init text t us H); [lia|exact plain_text|exact (sn_may _ Se)].
    - exists []. unfold alone. rewrite (C39_ago_never e gwords_init text ref plain_text). reflexivity.
    - exact (C64_clock_total e text t us He H).
    - exact (C61_iso_returns e gwords_init text ref He).
    - exact (C62_holidays_return e gwords_init text t us He H).
    - exact returns_week.
  Qed.
End One.

Lemma all_return e text ref : forall ps, (forall p, In p ps -> exists rs, alone e p text ref = Ret rs) -> exists rs, all_alone e ps text ref = Ret rs.
Proof.
  induction ps as [|p ps IH]; intros F; [exists []; reflexivity|]. destruct (F p (or_introl eq_refl)) as (l & E). destruct IH as (m & Em); [intros q Iq; apply F; right; exact Iq|].
  exists (l ++ m). cbn [all_alone]. rewrite E. cbn [bind]. rewrite Em. reflexivity.
Qed.
Lemma order_in len rs r : in_order len rs -> In r rs -> 0 <= getIndex r /\ getIndex r + textLength r <= len.
Proof. induction 1 as [|x l A B C D IH]; intros I; [contradiction|]. destruct I as [<-|I]; auto. Qed.

Lemma to_lower_len text : List.length (to_lower text) = List.length text. Proof. unfold to_lower. apply map_length. Qed.

(** ** C81.  The refiners return: for any results that lie inside the text and say an existing date, nothing is thrown and nothing undefined happens. *)
Theorem C81_refiners_return : forall rs text, Z.of_nat (List.length text) < 2 ^ 32 ->
  (forall r, In r rs -> 0 <= getIndex r /\ getIndex r + textLength r <= Z.of_nat (List.length text) /\ exists c, on_date (r_start r) c /\ real_date c) ->
  exists out, run_refiners rs text = Ret out.
Proof.
  intros rs text L F. apply refiners_return; [exact L|]. apply Forall_forall. intros r I. destruct (F r I) as (A & B & D). split; [split; assumption|exact D].
Qed.
Print Assumptions C81_refiners_return.
Example C81_case : exists rs, all_alone (benign_env "a") [casual_date; time_expression] (bs "today at 5 pm") noon2024 = Ret rs /\ List.length rs = 2%nat /\
  forall r, In r rs -> 0 <= getIndex r /\ getIndex r + textLength r <= Z.of_nat (List.length (bs "today at 5 pm")) /\ exists c, on_date (r_start r) c /\ real_date c.
Proof.
  eexists. split; [vm_compute; reflexivity|]. split; [reflexivity|].
  intros r [<-|[<-|[]]]; (split; [vm_compute; congruence|split; [vm_compute; congruence|]]); exists (Cal 2024 1 2); (split; [vm_compute; auto|concrete]).
Qed.
(** the dates must exist: a range from 30 February ends with an exception *)
Example C81_edge : exists rs, all_alone (benign_env "a") [iso] (bs "2023-02-30 - 2023-03-01") noon2024 = Ret rs /\ run_refiners rs (bs "2023-02-30 - 2023-03-01") = Throw OutOfRange.
Proof. eexists. split; [vm_compute; reflexivity|]. vm_compute. reflexivity. Qed.

(** ** C82 is false: days that do not exist end the program with an exception. *)
Theorem C82_program_answers_refuted :
  main (benign_env "a") sort_stable gwords_init (bs "2023-02-30") noon2024 = Throw OutOfRange /\ main (benign_env "a") sort_stable gwords_init (bs "25:12:30") noon2024 = Throw OutOfRange /\
  main (benign_env "a") sort_stable gwords_init (bs "next 999999 weeks") noon2024 = Throw OutOfRange.
Proof. split; [vm_compute; reflexivity|]. split; vm_compute; reflexivity. Qed.
Print Assumptions C82_program_answers_refuted.
(** It answers every sensible text, for references of the years 1421 to 8999, however std::sort orders results of the same index: with a date or with the "invalid date" line.
    (Missing: the texts SenseSpec.v excludes, and machines on which stale or uninitialised memory is not readable.) *)
Theorem C82_program_answers_partial : forall e sortf text t us, benign e -> is_sort sortf -> Z.of_nat (List.length text) < 2 ^ 32 -> real_instant t us -> 1421 <= cy (mdate t) <= 8999 -> sensible (to_lower text) ->
  exists out, main e sortf gwords_init text (ptime_of t us) = Ret out /\ (out = invalid_message \/ exists s, out = line s).
Proof.
  intros e sortf text t us He Hs Hn H Hy Se. rewrite main_alone.
  destruct (all_return e text (ptime_of t us) parsers) as (rs & E); [intros p Ip; exact (every_returns e text t us He H Hy Se p Ip)|]. rewrite E. cbn [bind].
  assert (F : Forall (fair (to_lower text)) (sortf rs)).
  { apply Forall_forall. intros r I. destruct (Hs rs) as [P _]. apply (Permutation_in _ (Permutation_sym P)) in I. apply (all_alone_in _ _ _ _ _ E) in I as (p & l & Ip & Xp & Il).
    destruct (every_usual e text t us He H Hy Se Hn p l r Ip Xp Il) as (G & Z & En).
    pose proof (C13_results_in_order e p gwords_init text (ptime_of t us) l (benign_sane e He) (in_all _ Ip) Hn Xp) as O. destruct (order_in _ _ _ O Il) as (B1 & B2).
    split; [unfold inside, OverlapFacts.starts, OverlapFacts.stops; rewrite to_lower_len; lia|]. split; [exact G|]. split; [lia|exact En]. }
  destruct (refined_shown (sortf rs) (to_lower text)) as (out & Eo & Ro); [rewrite to_lower_len; exact Hn|exact F|]. rewrite Eo. cbn [bind]. destruct out as [|r out]; [exists invalid_message; split; [reflexivity|auto]|].
  inversion Ro as [|? ? (w & Ew) _]; subst. cbn [show]. rewrite Ew. cbn [bind]. eexists. split; [reflexivity|]. right. exists w. reflexivity.
Qed.
Print Assumptions C82_program_answers_partial.

(** a sensible text *)
Fixpoint drop_blanks (t : bytes) : bytes := match t with c :: t' => if is_space c then drop_blanks t' else t | [] => [] end.
Definition four_digits (t : bytes) : bool := match t with a :: b :: c :: d :: _ => is_digit a && is_digit b && is_digit c && is_digit d | _ => false end.
Definition long_amount (t : bytes) : bool :=
  existsb (fun kw => if list_eq_dec ascii_dec (firstn (List.length kw) t) kw then four_digits (drop_blanks (skipn (List.length kw) t)) else false) [bs "in"; bs "last"; bs "next"].
Fixpoint suffixes (t : bytes) : list bytes := t :: match t with [] => [] | _ :: t' => suffixes t' end.
Lemma in_suffixes : forall a b : bytes, In b (suffixes (a ++ b)).
Proof. induction a as [|x a IH]; intros b; [destruct b; left; reflexivity|]. right. apply IH. Qed.
Lemma drop_blanks_app sp t : blanks sp -> drop_blanks (sp ++ t) = drop_blanks t.
Proof. induction 1 as [|c sp Hc F IH]; [reflexivity|]. cbn [app drop_blanks]. rewrite Hc. exact IH. Qed.
Lemma amount_checked tx : forallb (fun t => negb (long_amount t)) (suffixes tx) = true ->
  forall kw sp n, In kw [bs "in"; bs "last"; bs "next"] -> blanks sp -> sp <> [] -> digits n -> occurs (kw ++ sp ++ n) tx -> (List.length n <= 3)%nat.
Proof.
  intros F kw sp n I B _ D (a & b & E). destruct (Nat.le_gt_cases (List.length n) 3) as [|G]; [assumption|exfalso]. rewrite forallb_forall in F.
  specialize (F ((kw ++ sp ++ n) ++ b)). rewrite E in F. specialize (F (in_suffixes a _)). rewrite <- !app_assoc in F. apply negb_true_iff in F. unfold long_amount in F.
  assert (Q : four_digits (drop_blanks (sp ++ n ++ b)) = true).
  { rewrite drop_blanks_app by exact B. destruct n as [|x [|y [|z [|w n]]]]; cbn [List.length] in G; try lia. inversion D as [|? ? D1 D']; subst. inversion D' as [|? ? D2 D'']; subst. inversion D'' as [|? ? D3 D3']; subst. inversion D3' as [|? ? D4 _]; subst.
    cbn [app drop_blanks]. assert (Sx : is_space x = false). { assert (Al : forallb (fun c => implb (is_digit c) (negb (is_space c))) all_ascii = true) by (vm_compute; reflexivity). pose proof (forall_ascii _ Al x) as Q. cbv beta in Q. rewrite D1 in Q. cbn [implb] in Q. apply negb_true_iff in Q. exact Q. }
    rewrite Sx. cbn [four_digits]. rewrite D1, D2, D3, D4. reflexivity. }
  assert (P : existsb (fun kw0 => if list_eq_dec ascii_dec (firstn (List.length kw0) (kw ++ sp ++ n ++ b)) kw0 then four_digits (drop_blanks (skipn (List.length kw0) (kw ++ sp ++ n ++ b))) else false) [bs "in"; bs "last"; bs "next"] = true); [|congruence].
  apply existsb_exists. exists kw. split; [exact I|]. rewrite firstn_app, Nat.sub_diag, firstn_all, app_nil_r. destruct (list_eq_dec ascii_dec kw kw) as [_|N]; [|congruence]. rewrite skipn_app, Nat.sub_diag, skipn_all. exact Q.
Qed.
Definition plain_words : bytes := bs "we met on jan 5 1980 at 5 pm, again in 20 days or last week".
Lemma factor_checked (s tx : bytes) : forallb (fun t => if list_eq_dec ascii_dec (firstn (List.length s) t) s then false else true) (suffixes tx) = true -> ~ occurs s tx.
Proof.
  intros F (a & b & E). rewrite forallb_forall in F. specialize (F (s ++ b)). rewrite E in F. specialize (F (in_suffixes a _)). cbv beta in F. rewrite firstn_app, Nat.sub_diag, firstn_all, app_nil_r in F.
  destruct (list_eq_dec ascii_dec s s); congruence.
Qed.
Lemma sub_occurs (a s b tx : bytes) : occurs (a ++ s ++ b) tx -> occurs s tx.
Proof. intros (x & y & E). exists (x ++ a), (b ++ y). rewrite E, <- !app_assoc. reflexivity. Qed.
Lemma four_checked (w tx : bytes) : forallb (fun t => if four_digits t then if list_eq_dec ascii_dec (firstn 4 t) w then true else false else true) (suffixes tx) = true ->
  forall yy, digits yy -> List.length yy = 4%nat -> occurs yy tx -> yy = w.
Proof.
  intros F yy D L (a & b & E). rewrite forallb_forall in F. specialize (F (yy ++ b)). rewrite E in F. specialize (F (in_suffixes a _)). cbv beta in F.
  destruct yy as [|x [|y [|z [|u [|? ?]]]]]; try discriminate L. inversion D as [|? ? D1 D']; subst. inversion D' as [|? ? D2 D'']; subst. inversion D'' as [|? ? D3 D3']; subst. inversion D3' as [|? ? D4 _]; subst.
  cbn [app four_digits firstn] in F. rewrite D1, D2, D3, D4 in F. cbn [andb] in F. destruct (list_eq_dec ascii_dec [x; y; z; u] w); congruence.
Qed.
Lemma plain_month : forall mw mo, month_word mw mo -> occurs mw plain_words -> mo = 1.
Proof.
  intros mw mo M O. destruct M as (s & M).
  assert (Os : occurs (bs s) plain_words /\ (In (s, mo) (month_names ++ month_short_names))).
  { destruct M as [[I ->]|[I [-> | ->]]]; (split; [|apply in_or_app; tauto]); try exact O. apply (sub_occurs [] (bs s) (bs ".")) in O. exact O. }
  destruct Os as [Os I]. assert (F : forallb (fun x => (snd x =? 1) || forallb (fun t => if list_eq_dec ascii_dec (firstn (List.length (bs (fst x))) t) (bs (fst x)) then false else true) (suffixes plain_words)) (month_names ++ month_short_names) = true) by (vm_compute; reflexivity).
  rewrite forallb_forall in F. specialize (F (s, mo) I). cbn [fst snd] in F. apply orb_prop in F as [F|F]; [lia|]. exfalso. exact (factor_checked _ _ F Os).
Qed.
Lemma plain_year_1980 : forall yy, digits yy -> List.length yy = 4%nat -> occurs yy plain_words -> yy = bs "1980".
Proof. apply four_checked. vm_compute. reflexivity. Qed.
Lemma plain_none : forall w, In w [bs "ad"; bs "bc"; bs "be"; bs "-"; bs "–"; bs "~"; bs "〜"; bs "to"; bs "?"; bs ":"; bs "："; bs "may."] -> ~ occurs w plain_words.
Proof.
  intros w I. apply factor_checked. revert w I. apply forallb_forall. vm_compute. reflexivity.
Qed.
Lemma plain_era e : (e = AD \/ e = BC \/ e = BE) -> ~ occurs (era_word e) plain_words.
Proof. intros [-> | [-> | ->]]; apply plain_none; cbn; tauto. Qed.
Example C82_case : sensible (to_lower plain_words) /\ exists out, main (benign_env "a") sort_stable gwords_init plain_words noon2024 = Ret out /\ out = line (bs "1980-Jan-05 17:00:00").
Proof.
  split; [|eexists; split; [vm_compute; reflexivity|reflexivity]]. change (to_lower plain_words) with plain_words. split.
  - intros I. vm_compute in I. repeat (destruct I as [I|I]; [discriminate I|]). exact I.
  - apply plain_none. cbn; tauto.
  - apply amount_checked. vm_compute. reflexivity.
  - intros mw mo sep dw d M _ _ O Hd. apply (sub_occurs [] mw (sep ++ dw)) in O. rewrite (plain_month mw mo M O). change (month_len 2023 1) with 31. lia.
  - intros w x (l & mw & sep & dw & sp & rg & yr & Et & _ & _ & _ & _ & _ & _ & To & Yr) O. rewrite Et in O. split.
    + unfold to_part in To. destruct (md_to x) as [[d b]|]; [exfalso|reflexivity]. destruct To as (to & s1 & x0 & s2 & -> & K & _).
      replace (l ++ mw ++ sep ++ dw ++ sp ++ (to ++ s1 ++ x0 ++ s2) ++ yr) with ((l ++ mw ++ sep ++ dw ++ sp) ++ to ++ (s1 ++ x0 ++ s2 ++ yr)) in O by (rewrite <- !app_assoc; reflexivity).
      apply sub_occurs in O. revert O. apply plain_none. destruct K as [-> | ->]; cbn; tauto.
    + unfold year_part in Yr. destruct (md_year x) as [[yy er]|]; [|exact I]. destruct Yr as (s1 & y & s2 & -> & _ & Wy & _).
      replace (l ++ mw ++ sep ++ dw ++ sp ++ rg ++ s1 ++ y ++ s2) with ((l ++ mw ++ sep ++ dw ++ sp ++ rg ++ s1) ++ y ++ s2) in O by (rewrite <- !app_assoc; reflexivity). apply sub_occurs in O.
      assert (E0 : er <> NoEra -> False).
      { intros N. assert (Oe : occurs (era_word er) plain_words) by (destruct Wy as [yy sp' er ? ? ?|yy sp' er ? ? ? ?]; [apply (sub_occurs (yy ++ sp') _ []); rewrite app_nil_r, <- app_assoc; exact O|apply (sub_occurs (yy ++ sp') _ []); rewrite app_nil_r, <- app_assoc; exact O]).
        revert Oe. apply plain_era. destruct er; tauto. }
      destruct Wy as [yy sp' er D L4 _|yy sp' er D _ _ [-> | ->]]; [|exfalso; apply E0; discriminate..]. destruct er; try (exfalso; apply E0; discriminate).
      apply (sub_occurs [] yy) in O. rewrite (plain_year_1980 yy D L4 O). vm_compute. split; congruence.
  - intros w m sp tail yy sp' er _ _ (sep & s1 & -> & _) _ D L4 O.
    assert (Oy : occurs yy plain_words) by (apply (sub_occurs (w ++ sp ++ sep ++ s1) yy (sp' ++ era_word er)); rewrite <- !app_assoc; exact O). rewrite (plain_year_1980 yy D L4 Oy).
    assert (Oe : occurs (era_word er) plain_words) by (apply (sub_occurs (w ++ sp ++ sep ++ s1 ++ yy ++ sp') (era_word er) []); rewrite app_nil_r, <- !app_assoc; exact O).
    destruct er; [vm_compute; split; congruence|exfalso; revert Oe; apply plain_era; tauto..].
  - intros c k (p & q & -> & _ & M & _) O N. exfalso. remember (ck_sec k) as ss eqn:Es. remember (ck_min k) as mm eqn:Em. destruct M as [|a mm' A D L|a mm' b ss' f A D L Sm Ds Ls F]; [congruence|congruence|].
    assert (Ob : occurs b plain_words) by (apply (sub_occurs (ck_hour k ++ a ++ mm') b (ss' ++ f ++ q)); rewrite <- !app_assoc in *; exact O). revert Ob. apply plain_none. destruct Sm as [-> | ->]; cbn; tauto.
  - intros c k gap s k2 _ _ (s1 & w & s2 & r & -> & _ & W & _) O.
    assert (Ow : occurs w plain_words) by (apply (sub_occurs (c ++ gap ++ s1) w (s2 ++ r)); rewrite <- !app_assoc; exact O). revert Ow. apply plain_none. unfold to_word in W. cbn [In] in W |- *. tauto.
Qed.
