(** * Rendering parser results (C10) *)
From Verif Require Import Base Regex RegexParse Calendar Components Utils Execute Spec View ParserSpec PhraseSpec WeekSpec RelativeSpec ClockSpec MiddleSpec CalendarCycle CalendarFacts RegexFacts ResultFacts
  ExecuteFacts ParserRe MatchFacts LocateFacts HistoryFacts ParserFacts CasualFacts NumberFacts DeadlineFacts HolidayFacts MonthFacts Main P_CasualDate P_CasualTime P_Deadline P_Holiday P_ISO P_MonthName P_MiddleEndian P_Relative P_TimeExpression P_Week Prop_Execute Prop_Casual Prop_Deadline Prop_Holiday Prop_Month Prop_Week Prop_Relative Prop_Clock Prop_ISO MiddleMatch MiddleMean Prop_Middle Prop_Tags.
From Coq Require Import ZifyBool ZifyNat ZifyN.
Open Scope string_scope.
Open Scope list_scope.
Open Scope Z_scope.
Ltac Zify.zify_post_hook ::= Z.div_mod_to_equations.

(** toDate() returns *)
Definition renders (r : result) : Prop := exists w, toDate r = Ret w.
(** one side: a real date, and hours, minutes and seconds (24 hours and more run into the next day) *)
Definition renderable (p : pc) : Prop :=
  exists c, on_date p c /\ real_date c /\ 0 <= getMinute p < 60 /\ 0 <= getSeconds p < 60 /\ (0 <= getHour p < 24 \/ 24 <= getHour p < 48 /\ c <> Cal 9999 12 31).
Lemma renderable_ok p : renderable p -> exists u w, pc_date p = Ret u /\ to_simple_string u = Ret w.
Proof.
  intros (c & (E1 & E2 & E3) & R & Hm & Hs & Hh). unfold pc_date, ptime_from_tm. rewrite E1, E2, E3.
  pose proof R as [V Y]. pose proof (month_len_bounds (cy c) (cm c) (proj1 V)) as ML. destruct V as [Vm Vd]. unfold in_range_year in Y. rewrite !u16_small by lia. rewrite mk_date_real by exact R. cbn [bind].
  assert (T : time_duration (getHour p) (getMinute p) (getSeconds p) = (3600 * getHour p + 60 * getMinute p + getSeconds p) * SEC).
  { unfold time_duration. replace ((getHour p <? 0) || (getMinute p <? 0) || (getSeconds p <? 0)) with false by lia. rewrite !Z.abs_eq by lia. reflexivity. }
  rewrite T. set (v := 3600 * getHour p + 60 * getMinute p + getSeconds p) in *. pose proof (proj1 (in_range_iff c (proj1 R)) (proj2 R)) as B.
  assert (Hi : 24 <= getHour p -> dn_of c < HI).
  { intros Q. destruct Hh as [Hh|[_ N]]; [lia|]. assert (dn_of c <> HI); [|lia]. rewrite HI_eq. intros E. apply N. apply (rd_inj c (Cal 9999 12 31)); [apply R|concrete|]. unfold dn_of in E. lia. }
  assert (D : pt_daynum (dn_of c * DAY + v * SEC) = dn_of c + v / 86400) by (unfold pt_daynum, DAY, HOUR, MINUTE, SEC; lia).
  assert (LO' : LO <= dn_of c + v / 86400 <= HI) by (unfold v; lia).
  destruct (dn_real _ LO') as (c' & R' & Ec). assert (P : 0 <= dn_of c * DAY + v * SEC) by (unfold LO, DAY, HOUR, MINUTE, SEC in *; lia).
  exists (dn_of c * DAY + v * SEC). eexists. split; [reflexivity|]. unfold to_simple_string. rewrite D, Ec, ymd_real by exact R'. cbn [bind]. unfold pt_tod. replace (0 <=? dn_of c * DAY + v * SEC) with true by lia. cbn [bind]. reflexivity.
Qed.
Lemma renders_ok r : renderable (r_start r) -> getTimeZoneOffset (r_start r) = 0 -> (has_end r = true -> renderable (r_endc r)) -> renders r.
Proof.
  intros A Z B. destruct (renderable_ok _ A) as (u & w & E1 & E2). unfold renders, toDate. rewrite E1. cbn [bind]. rewrite Z.
  replace (if tag_is TExtractTZ r then u + 0 * MINUTE else u) with u by (destruct (tag_is TExtractTZ r); lia). rewrite E2. cbn [bind]. unfold has_end in B. destruct (r_hasend r); [|eauto].
  destruct (renderable_ok _ (B eq_refl)) as (u' & w' & E1' & E2'). rewrite E1'. cbn [bind]. rewrite E2'. cbn [bind]. eauto.
Qed.
Print Assumptions renders_ok.

Lemma date_of_implied p c : date_implied p c -> on_date p c.
Proof. intros ((_ & _ & A) & (_ & _ & B) & (_ & _ & C)). cbn [api_get] in *. repeat split; assumption. Qed.
Lemma date_of_certain p c : date_certain p c -> on_date p c.
Proof. intros ((_ & A) & (_ & B) & (_ & C)). cbn [api_get] in *. repeat split; assumption. Qed.
Lemma unset_in f fs p : untouched fs p -> In f fs -> api_get f p = 0.
Proof. intros U I. unfold untouched in U. rewrite Forall_forall in U. apply (U f I). Qed.
Lemma untouched_sub fs fs' p : untouched fs p -> (forall f, In f fs' -> In f fs) -> untouched fs' p.
Proof. unfold untouched. rewrite !Forall_forall. auto. Qed.
Lemma renderable_day p c : on_date p c -> real_date c -> untouched [Hour; Min; Sec] p -> renderable p.
Proof.
  intros D R U. exists c. split; [exact D|]. split; [exact R|]. pose proof (unset_in Hour _ _ U ltac:(cbn; tauto)) as A. pose proof (unset_in Min _ _ U ltac:(cbn; tauto)) as B. pose proof (unset_in Sec _ _ U ltac:(cbn; tauto)) as C. cbn [api_get] in *. lia.
Qed.
Lemma renderable_at p c h mi s : on_date p c -> real_date c -> getHour p = h -> getMinute p = mi -> getSeconds p = s -> 0 <= h < 24 -> 0 <= mi < 60 -> 0 <= s < 60 -> renderable p.
Proof. intros D R A B C. exists c. split; [exact D|]. split; [exact R|]. lia. Qed.
Lemma some_day n : 1 <= n -> exists c, valid c /\ rd c = n.
Proof.
  intros H. pattern n. apply Zlt_lower_bound_ind with (z := 1); [|exact H]. clear n H. intros n IH Hn. destruct (Z.eq_dec n 1) as [->|Ne]; [exists (Cal 1 1 1); split; [concrete|reflexivity]|].
  destruct (IH (n - 1) ltac:(lia)) as (c & V & E). exists (next_day c). split; [apply valid_next_day; exact V|]. rewrite rd_next_day by exact V. lia.
Qed.
Lemma some_moment t n : real_moment t -> 0 <= n -> exists t', seconds_after n t t'.
Proof.
  intros (R & H1 & H2 & H3) Hn. set (v := sec_count t + n). pose proof (proj1 (in_range_iff _ (proj1 R)) (proj2 R)) as B. unfold dn_of, LO, JDN0 in B.
  destruct (some_day (v / 86400)) as (c & V & E); [unfold v, sec_count; lia|]. exists (Moment c (v mod 86400 / 3600) (v mod 3600 / 60) (v mod 60)). split; [exact V|]. cbn [mhour mmin msec mdate]. do 3 (split; [lia|]).
  unfold sec_count at 1. cbn [mhour mmin msec mdate]. rewrite E. fold v. lia.
Qed.
Lemma zone_unset fs p : untouched fs p -> In TzOffset fs -> getTimeZoneOffset p = 0.
Proof. exact (unset_in TzOffset fs p). Qed.

(** C10 is false: "2023-02-30", a written year with a day its month does not have, and clock results that keep only the seconds. *)
Theorem C10_toDate_refuted :
  (exists r, x_res (execute strict_env iso gwords_init (bs "2023-02-30") noon2024) = Ret [r] /\ toDate r = Throw OutOfRange) /\
  (exists r, x_res (execute strict_env middle_endian gwords_init (bs "feb 30 2012 was") noon2024) = Ret [r] /\ toDate r = Throw OutOfRange) /\
  (exists r, x_res (execute strict_env time_expression gwords_init (bs "25:12:30") noon2024) = Ret [r] /\ toDate r = Throw OutOfRange).
Proof. repeat split; eexists; (split; [vm_compute; reflexivity|]); vm_compute; reflexivity. Qed.
Print Assumptions C10_toDate_refuted.

(** For seven of the thirteen parsers it is true of every result of every text. *)
Theorem C10_casual_date_partial : forall e g text t us rs res, sane e -> real_instant t us -> x_res (execute e casual_date g text (ptime_of t us)) = Ret rs -> In res rs -> renders res.
Proof.
  intros e g text t us rs res He H X I. destruct (C18_casual_dates e g text t us rs res He H X I) as (En & U & C). cbv zeta in *. pose proof H as ((R & H1 & H2 & H3) & _).
  apply renders_ok; [|apply (zone_unset _ _ U); cbn; tauto|congruence].
  decompose [or ex and] C; clear C.
  all: match goal with D : date_certain _ _ |- _ => apply date_of_certain in D end.
  all: repeat match goal with Q : implied_is Hour _ _ |- _ => destruct Q as (_ & _ & Q) | Q : certain _ _ _ |- _ => destruct Q as (_ & Q) end; cbn [api_get] in *.
  all: try (eapply renderable_day; [eassumption|assumption|assumption]).
  all: try (eapply renderable_at; [eassumption|assumption|eassumption|eassumption|eassumption|lia..]).
  all: match goal with Q : untouched [Min; Sec] _ |- _ => pose proof (unset_in Min _ _ Q ltac:(cbn; tauto)) as Q1; pose proof (unset_in Sec _ _ Q ltac:(cbn; tauto)) as Q2 end; cbn [api_get] in *.
  all: eapply renderable_at; [eassumption|assumption|eassumption|eassumption|eassumption|lia..].
Qed.
Print Assumptions C10_casual_date_partial.
Theorem C10_casual_time_partial : forall e g text t us rs res, sane e -> real_instant t us -> x_res (execute e casual_time g text (ptime_of t us)) = Ret rs -> In res rs -> renders res.
Proof.
  intros e g text t us rs res He H X I. destruct (C20_casual_times e g text t us H) as (rs' & X' & C). rewrite X in X'. apply ret_same in X'. subst rs'. destruct (C res He I) as (this & sp & w & h & _ & _ & _ & Iw & D & _ & (_ & _ & Eh) & (_ & _ & Em) & U & En & _).
  pose proof H as ((R & H1 & H2 & H3) & _). pose proof (unset_in Sec _ _ U ltac:(cbn; tauto)) as Es. cbn [api_get] in *. apply renders_ok; [|apply (zone_unset _ _ U); cbn; tauto|congruence].
  apply date_of_implied in D. eapply renderable_at; [exact D|exact R|exact Eh|exact Em|exact Es| |lia|lia]. cbn in Iw. decompose [or] Iw; try contradiction; match goal with E : (_, _) = (_, _) |- _ => injection E as <- <- end; lia.
Qed.
Print Assumptions C10_casual_time_partial.
Theorem C10_week_partial : forall e calls text t us rs res, sane e -> past calls -> real_instant t us -> x_res (execute e week (words_after e calls) text (ptime_of t us)) = Ret rs -> In res rs -> renders res.
Proof.
  intros e calls text t us rs res He Pc H X I. destruct (C38_every_week e calls text t us rs res He Pc H X I) as (En & U & C). pose proof H as ((R & _) & _).
  assert (U' : untouched [Hour; Min; Sec] (r_start res)) by (apply (untouched_sub _ _ _ U); cbn; tauto).
  apply renders_ok; [|apply (zone_unset _ _ U); cbn; tauto|congruence].
  destruct C as [(sp & _ & _ & D)|(kw & s & s1 & n & k & s2 & ws & c & _ & _ & _ & _ & _ & _ & _ & _ & Rc & D)]; apply date_of_implied in D; eapply renderable_day; eassumption.
Qed.
Print Assumptions C10_week_partial.
Theorem C10_holiday_partial : forall e g text t us rs res, sane e -> real_instant t us -> x_res (execute e holiday g text (ptime_of t us)) = Ret rs -> In res rs -> renders res.
Proof.
  intros e g text t us rs res He H X I. pose proof H as ((R & _) & _).
  destruct (results_from_pure e holiday_pattern holiday_extract g text _ rs res holiday_re He in_holiday holiday_compile X I) as (off & m & r0 & S & L & Xr & P & ->).
  destruct (holiday_by_pick e g (skipn off (to_lower text)) m t us (Z.of_nat (off + m_pos m)) H) as (r1 & X1 & (_ & _ & En) & Pk). rewrite X1 in Xr. apply ret_same in Xr. subst r1.
  assert (Q : exists c, real_date c /\ date_certain (r_start r0) c /\ certain Hour 0 (r_start r0) /\ certain Min 0 (r_start r0) /\ untouched [Sec; TzOffset] (r_start r0)).
  { destruct (pick (m_str m)) as [r| |].
    - destruct Pk as (c & Rc & _ & D & _ & A & B & U). eauto 8.
    - destruct Pk as (d0 & (_ & _ & B) & D & _ & A & A' & U). exists (Cal (cy (mdate t)) 11 (d0 + 2)). split; [|auto]. split; [apply nov_valid; lia|apply R].
    - rewrite (nothing_impossible _ Pk) in P. discriminate. }
  destruct Q as (c & Rc & D & (_ & Eh) & (_ & Em) & U). apply renders_ok; cbn [r_start res_copy]; [|apply (zone_unset _ _ U); cbn; tauto|unfold has_end in *; cbn [r_hasend res_copy]; congruence].
  apply date_of_certain in D. eapply renderable_at; [exact D|exact Rc|exact Eh|exact Em|apply (unset_in Sec _ _ U); cbn; tauto|lia..].
Qed.
Print Assumptions C10_holiday_partial.
Lemma clock_at p t : on_date p (mdate t) -> clock_implied p t -> real_moment t -> renderable p.
Proof. intros D ((_ & _ & A) & (_ & _ & B) & (_ & _ & C)) (R & H1 & H2 & H3). eapply renderable_at; [exact D|exact R|exact A|exact B|exact C|assumption..]. Qed.
Lemma half_day_at p t : real_moment t -> date_implied p (mdate t) -> implied_is Hour (mhour t) p -> implied_is Min (mmin t) p -> untouched [Sec] p -> renderable p.
Proof. intros (R & H1 & H2 & H3) D (_ & _ & A) (_ & _ & B) U. apply date_of_implied in D. eapply renderable_at; [exact D|exact R|exact A|exact B|apply (unset_in Sec _ _ U); cbn; tauto|lia..]. Qed.
Lemma day_renders p c : day_result p c -> renderable p.
Proof. intros (R & D & U). apply date_of_implied in D. eapply renderable_day; eassumption. Qed.
Theorem C10_deadline_partial : forall e text t us rs res, sane e -> real_instant t us -> x_res (execute e deadline gwords_init text (ptime_of t us)) = Ret rs -> In res rs -> renders res.
Proof.
  intros e text t us rs res He H X I. pose proof H as (Rm & _).
  destruct (results_from_pure e deadline_pattern deadline_extract gwords_init text _ rs res deadline_re He in_deadline deadline_compile X I) as (off & m & r0 & S & L & Xr & P & ->).
  destruct (deadline_extracted e _ _ _ _ _ _ H L S Xr P) as (kw & s1 & n & s2 & u & q & _ & _ & _ & _ & Sq & _ & _ & Iu & (U & F & A) & _ & _ & E).
  apply renders_ok; cbn [r_start res_copy]; [|apply (zone_unset _ _ U); cbn; tauto|unfold has_end in *; cbn [r_hasend res_copy]; congruence].
  apply in_map_iff in Iu as (w & <- & Iw). apply in_app_or in Iw as [Iw|Iw].
  - apply in_map_iff in Iw as ((w' & k) & E' & Ik). cbn [fst] in E'. subst w'. specialize (F w k eq_refl Ik). unfold deadline_means in F.
    assert (Q : forall secs, 0 <= secs -> date_implied (r_start r0) (mdate t) /\ (forall t', seconds_after secs t t' -> clock_implied (r_start r0) t') -> renderable (r_start r0)).
    { intros secs Hs (D & C). destruct (some_moment t secs Rm Hs) as (t' & St). specialize (C t' St) as ((_ & _ & C1) & (_ & _ & C2) & (_ & _ & C3)). apply date_of_implied in D. destruct St as (_ & B1 & B2 & B3 & _).
      eapply renderable_at; [exact D|apply Rm|exact C1|exact C2|exact C3|assumption..]. }
    destruct k, q as [k'|]; cbn [deadline_means] in F;
    first [ solve [destruct F as (c & _ & D); eapply day_renders; exact D]
          | solve [destruct F as (t' & Rt & _ & D & A1 & A2 & A3); eapply half_day_at; [exact Rt|assumption..]]
          | solve [destruct F as (secs & _ & Hs & D & C); eapply Q; [exact Hs|split; [exact D|exact C]]]].
  - destruct (A (in_map bs _ _ Iw)) as [D C]. apply date_of_implied in D. eapply clock_at; eassumption.
Qed.
Print Assumptions C10_deadline_partial.
Theorem C10_relative_partial : forall e text t us rs res, sane e -> real_instant t us -> x_res (execute e relative gwords_init text (ptime_of t us)) = Ret rs -> In res rs -> renders res.
Proof.
  intros e text t us rs res He H X I. pose proof H as (Rm & _).
  destruct (C42_every_relative e text t us rs res He H X I) as [(kw & s & s1 & n & q & s2 & w & _ & _ & _ & _ & _ & En & U & C)|(sp & w & _ & _ & En & U & U2 & a & b & Ra & Rb & C)].
  - apply renders_ok; [|apply (zone_unset _ _ U); cbn; tauto|congruence]. destruct C as [(u & _ & M)|(_ & D & C)]; [|apply date_of_implied in D; eapply clock_at; eassumption].
    destruct u, q as [k|]; cbn [relative_means] in M;
    first [ solve [destruct M as (c & _ & D); eapply day_renders; exact D]
          | solve [destruct M as (t' & Rt & _ & D & A1 & A2 & A3); eapply half_day_at; [exact Rt|assumption..]]
          | solve [destruct M as (secs & t' & _ & Rt & _ & D & C); apply date_of_implied in D; eapply clock_at; eassumption]].
  - assert (Da : on_date (r_start res) a /\ on_date (r_endc res) b).
    { destruct C as [(_ & _ & A & B)|[(_ & _ & (_ & A1) & (_ & A2) & (_ & _ & A3) & (_ & B1) & (_ & B2) & (_ & _ & B3))|(_ & _ & (_ & A1) & (_ & _ & A2) & (_ & _ & A3) & (_ & B1) & (_ & _ & B2) & (_ & _ & B3))]];
        [split; apply date_of_implied; assumption|cbn [api_get] in *; repeat split; assumption..]. }
    apply renders_ok; [|apply (zone_unset _ _ U); cbn; tauto|intros _]; (eapply renderable_day; [apply Da|assumption|eapply untouched_sub; [eassumption|cbn; tauto]]).
Qed.
Print Assumptions C10_relative_partial.
(** month names: without a written year, and with one the calendar has (years 1400 to 9999) *)
Theorem C10_month_name_partial : forall e g text t us rs res, sane e -> real_instant t us -> ~ In backslash text -> ~ occurs (bs "may.") (to_lower text) ->
  x_res (execute e month_name g text (ptime_of t us)) = Ret rs -> In res rs -> 1400 <= getYear (r_start res) <= 9999 -> renders res.
Proof.
  intros e g text t us rs res He H Nb Nm X I Hy. destruct (C33_every_month_partial e g text t us rs res He H Nb Nm X I) as (En & w & m & sp & tail & _ & Hm & _ & _ & C).
  assert (Q : certain Month m (r_start res) /\ implied_is MDay 1 (r_start res) /\ untouched [WDay; Hour; Min; Sec; TzOffset] (r_start res)) by (destruct C as [(_ & A & B & U & _)|(yy & er & sp' & _ & _ & _ & _ & A & B & U & _)]; auto).
  destruct Q as ((_ & A) & (_ & _ & B) & U). cbn [api_get] in *. apply renders_ok; [|apply (zone_unset _ _ U); cbn; tauto|congruence].
  eapply (renderable_day _ (Cal (getYear (r_start res)) m 1)); [repeat split; assumption| |eapply untouched_sub; [exact U|cbn; tauto]].
  split; [split; cbn [cy cm cd]; [exact Hm|pose proof (month_len_bounds (getYear (r_start res)) m Hm); lia]|exact Hy].
Qed.
Print Assumptions C10_month_name_partial.
(** month and day: when the day exists in the year of the result, at both ends *)
Theorem C10_month_day_partial : forall e g text t us rs res, sane e -> real_instant t us -> x_res (execute e middle_endian g text (ptime_of t us)) = Ret rs -> In res rs ->
  1400 <= getYear (r_start res) <= 9999 -> get_mDay (r_start res) <= month_len (getYear (r_start res)) (getMonth (r_start res)) ->
  (has_end res = true -> 1 <= get_mDay (r_endc res) <= month_len (getYear (r_start res)) (getMonth (r_start res))) -> renders res.
Proof.
  intros e g text t us rs res He H X I Hy Hd He'. destruct (C68_month_day_results e g text t us rs res He H X I) as (x & _ & Hm & Hx & (y & _ & ((_ & A) & (_ & B) & (_ & C) & _) & U & En)). cbn [api_get] in *.
  apply renders_ok; [|apply (zone_unset _ _ U); cbn; tauto|].
  - eapply (renderable_day _ (Cal y (md_month x) (md_day x))); [repeat split; assumption| |eapply untouched_sub; [exact U|cbn; tauto]]. split; [split; cbn [cy cm cd]; [exact Hm|rewrite A, B, C in Hd; lia]|unfold in_range_year; cbn [cy]; lia].
  - intros E. specialize (He' E). destruct (md_to x) as [[d b]|]; [|congruence]. destruct En as (_ & ((_ & A') & (_ & B') & (_ & C') & _) & (_ & Eh) & (_ & Em) & U'). cbn [api_get] in *.
    eapply (renderable_at _ (Cal y (md_month x) (if b then decimal d else 0))); [repeat split; assumption| |exact Eh|exact Em|apply (unset_in Sec _ _ U'); cbn; tauto|lia..].
    split; [split; cbn [cy cm cd]; [exact Hm|rewrite A, B', C in He'; exact He']|unfold in_range_year; cbn [cy]; lia].
Qed.
Print Assumptions C10_month_day_partial.
(** clock times: when an hour was recognised; on the last supported day only below 24 o'clock *)
Lemma clock_side t k h mi p : real_moment t -> 0 <= mi < 60 -> 0 <= h < 48 -> (24 <= h -> mdate t <> Cal 9999 12 31) -> digits (ck_sec k) -> at_time t k h mi p -> renderable p.
Proof.
  intros (R & _) Hm Hh Hl Ds ((_ & A) & (_ & B) & C & D & _). cbn [api_get] in *. exists (mdate t). split; [apply date_of_implied; exact D|]. split; [exact R|]. split; [lia|].
  split; [|destruct (Z_lt_ge_dec h 24); [left; lia|right; split; [lia|apply Hl; lia]]].
  unfold clock_seconds in C. pose proof (decimal_bounds _ Ds) as Bd. destruct (ck_sec k) as [|c ss]; [destruct C as (_ & _ & C); cbn [api_get] in C; lia|]. destruct C as ((_ & C) & L). cbn [api_get] in C. lia.
Qed.
Lemma time_bounds k h mi : clock_time k h mi -> 0 <= h <= 24 /\ 0 <= mi < 60 /\ (ck_mark k <> NoMarker -> h <= 12).
Proof.
  intros (T & A & B & C). assert (G : forall w v, hour_says w v -> 0 <= v) by (intros w v [| |w' D L]; [lia|lia|pose proof (decimal_bounds w' D); lia]).
  destruct T as [hw mm v Hs D L|hw v Hs L|hw v Hs L]; specialize (G _ _ Hs); [pose proof (decimal_bounds mm D)|..]; (split; [lia|split; [lia|exact C]]).
Qed.
Lemma form_seconds mk tx k : clock_form mk tx k -> digits (ck_sec k).
Proof. intros (p & q & _ & _ & M & _). remember (ck_min k) as a. remember (ck_sec k) as b. destruct M; subst; try constructor; assumption. Qed.
Theorem C10_clock_partial : forall e text t us rs res, sane e -> faithful e -> real_instant t us -> x_res (execute e time_expression gwords_init text (ptime_of t us)) = Ret rs -> In res rs ->
  getYear (r_start res) <> 0 -> mdate t <> Cal 9999 12 31 -> renders res.
Proof.
  intros e text t us rs res He F H X I Ny Nl. pose proof H as (Rm & _). destruct (C66_every_time e text t us rs res He F H X I) as (intro & c1 & k & gap & rest & _ & _ & Cf & _ & C).
  pose proof (form_seconds _ _ _ Cf) as Dk. destruct C as [(_ & _ & _ & _ & U)|(h & mi & Ct & C)]; [exfalso; apply Ny; apply (unset_in Year _ _ U); cbn; tauto|].
  destruct (time_bounds _ _ _ Ct) as (Bh & Bm & Bk). 
  assert (Oc : forall j v, 0 <= v <= 24 -> 0 <= on_clock j v < 48) by (intros j v B; unfold on_clock; destruct j; try lia; destruct (v =? 12); lia).
  assert (Tz : forall hour mm p k, at_time t k hour mm p -> getTimeZoneOffset p = 0) by (intros hour mm p k0 (_ & _ & _ & _ & U); apply (zone_unset _ _ U); cbn; tauto).
  destruct C as [(_ & En & A)|(_ & k2 & h2 & mi2 & Tt & Ct2 & A & E)].
  - apply renders_ok; [|eapply Tz; exact A|congruence]. eapply clock_side; [exact Rm|exact Bm|apply Oc; exact Bh|auto|exact Dk|exact A].
  - assert (Bs : 0 <= range_start (ck_mark k) h (ck_mark k2) < 48) by (unfold range_start; destruct (ck_mark k), (ck_mark k2); try (apply Oc; exact Bh); destruct (h =? 12); lia).
    apply renders_ok; [|eapply Tz; exact A|]; [eapply clock_side; [exact Rm|exact Bm|exact Bs|auto|exact Dk|exact A]|].
    destruct E as [(_ & _ & hour2 & Re & A2)|(_ & En)]; [intros _|congruence]. destruct (time_bounds _ _ _ Ct2) as (Bh2 & Bm2 & _).
    assert (B2 : 0 <= hour2 < 48) by (unfold range_end in Re; destruct (ck_mark k2), (ck_mark k); try (destruct Re as (j & ->)); subst; apply Oc; exact Bh2).
    destruct Tt as (_ & _ & _ & r & _ & _ & _ & _ & _ & Cf2). eapply clock_side; [exact Rm|exact Bm2|exact B2|auto|exact (form_seconds _ _ _ Cf2)|exact A2].
Qed.
Print Assumptions C10_clock_partial.
(** ISO: when the date is a real one *)
Lemma renders_untagged r : renderable (r_start r) -> tag_is TExtractTZ r = false -> has_end r = false -> renders r.
Proof.
  intros A Z B. destruct (renderable_ok _ A) as (u & w & E1 & E2). unfold renders, toDate. rewrite E1. cbn [bind]. rewrite Z, E2. cbn [bind]. unfold has_end in B. rewrite B. eauto.
Qed.
Theorem C10_iso_partial : forall e g text t us rs res, sane e -> real_instant t us -> x_res (execute e iso g text (ptime_of t us)) = Ret rs -> In res rs ->
  1400 <= getYear (r_start res) <= 9999 -> get_mDay (r_start res) <= month_len (getYear (r_start res)) (getMonth (r_start res)) ->
  getHour (r_start res) < 24 -> getMinute (r_start res) < 60 -> getSeconds (r_start res) < 60 -> renders res.
Proof.
  intros e g text t us rs res He H X I Hy Hd Hh Hm Hs. destruct (C29_impossible_dates_partial e g text _ rs res He X I) as (y & m & d & D & B1 & B2 & B3 & En & B4 & B5 & B6).
  apply date_of_certain in D. pose proof D as (D1 & D2 & D3). cbn [cy cm cd] in *. apply renders_untagged; [|apply (C73_no_refiner_tag e iso g text (ptime_of t us) rs res TExtractTZ He in_iso X I); left; reflexivity|exact En].
  eapply (renderable_at _ (Cal y m d)); [exact D| |reflexivity..|lia|lia|lia]. split; [split; cbn [cy cm cd]; [lia|rewrite D1, D2, D3 in Hd; lia]|unfold in_range_year; cbn [cy]; lia].
Qed.
Print Assumptions C10_iso_partial.
Example C10_case : exists r, x_res (execute strict_env relative gwords_init (bs "this month") noon2024) = Ret [r] /\ renders r.
Proof. eexists. split; [vm_compute; reflexivity|]. eexists. vm_compute. reflexivity. Qed.
