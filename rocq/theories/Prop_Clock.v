(** * Clock times and ranges (C43, C44, C45, C64, C65, C66) *)
From Verif Require Import Base Regex RegexParse Calendar Components Utils Execute Spec View ParserSpec PhraseSpec ClockSpec CalendarCycle CalendarFacts RegexFacts ResultFacts Template
  ExecuteFacts ParserRe MatchFacts FuelFacts LocateFacts HistoryFacts ParserFacts CasualFacts NumberFacts DeadlineFacts Symbolic Open OrdinalFacts ISOFacts HolidayFacts WeekFacts
  FragmentFacts AgoRuns AgoFacts RelativeFacts RelativeRuns ClockFacts ClockFamily ClockRuns Main P_TimeAgo P_TimeExpression Prop_Execute Prop_Casual Prop_Ago.
From Coq Require Import ZifyBool ZifyNat ZifyN.
Open Scope string_scope.
Open Scope list_scope.
Open Scope Z_scope.

Lemma in_time_expression : In time_expression all_parsers. Proof. unfold all_parsers. cbn. tauto. Qed.

(** ** What every result says *)
(** the destroyed character, if it can be read at all, is still the one that was there *)
Definition faithful (e : env) : Prop := forall c, ev_dangling e c = None \/ ev_dangling e c = Some c.
(** the end of a range: its own marker, or else the one of the start; any (or none) if there is no marker at all *)
Definition range_end (mk mk2 : marker) (h2 hour : Z) : Prop :=
  match mk2, mk with
  | NoMarker, NoMarker => exists j, hour = on_clock j h2
  | NoMarker, k => hour = on_clock k h2
  | k, _ => hour = on_clock k h2
  end.
(** a time of day on the reference date *)
Definition at_time (t : moment) (k : clock) (hour mi : Z) (p : pc) : Prop :=
  certain Hour hour p /\ certain Min mi p /\ clock_seconds k p /\ date_implied p (mdate t) /\ untouched [WDay; TzOffset] p.
Definition clock_result (t : moment) (tx : bytes) (r : result) : Prop :=
  exists intro c1 k gap rest, tx = intro ++ c1 ++ gap ++ rest /\ opening intro /\ clock_form colon_mark c1 k /\ (gap = [] \/ gap = bs " ") /\
  ((forall h mi, ~ clock_time k h mi) /\ has_end r = false /\ certain Sec (decimal (ck_sec k)) (r_start r) /\ 0 < decimal (ck_sec k) < 60 /\
     untouched [Year; Month; MDay; WDay; Hour; Min; TzOffset] (r_start r)
   \/ exists h mi, clock_time k h mi /\
     ((rest = [] \/ looks_like_zone rest \/ exists k2, to_text rest k2 /\ forall h2 mi2, ~ clock_time k2 h2 mi2) /\ has_end r = false /\ at_time t k (on_clock (ck_mark k) h) mi (r_start r)
      \/ ~ looks_like_zone rest /\ exists k2 h2 mi2, to_text rest k2 /\ clock_time k2 h2 mi2 /\ at_time t k (range_start (ck_mark k) h (ck_mark k2)) mi (r_start r) /\
         (seconds_fine k2 /\ has_end r = true /\ (exists hour2, range_end (ck_mark k) (ck_mark k2) h2 hour2 /\ at_time t k2 hour2 mi2 (r_endc r))
          \/ ~ seconds_fine k2 /\ has_end r = false))).

Lemma stamp_at t k h mi : seconds_fine k -> at_time t k h mi (stamp t h mi (ck_sec k)).
Proof.
  intros F. unfold at_time, clock_seconds, seconds_fine in *. destruct (ck_sec k) as [|c ss].
  - repeat split; comps.
  - destruct F as [F|F]; [discriminate|]. split; [comps|]. split; [comps|]. split; [split; [comps|exact F]|]. split; comps.
Qed.
Lemma stamp_hour t h h' mi ss : pc_get "hour" (setHour h' (stamp t h mi ss)) = h'.
Proof. destruct ss; reflexivity. Qed.
Lemma stamp_at_moved t k h h' mi : seconds_fine k -> at_time t k h' mi (setHour h' (stamp t h mi (ck_sec k))).
Proof.
  intros F. unfold at_time, clock_seconds, seconds_fine in *. destruct (ck_sec k) as [|c ss].
  - repeat split; comps.
  - destruct F as [F|F]; [discriminate|]. split; [comps|]. split; [comps|]. split; [split; [comps|exact F]|]. split; comps.
Qed.
Lemma choice_says e w6 w14 k k2 h h2 x : faithful e -> (w6 = [] /\ k = NoMarker) \/ marker_word w6 k -> (w14 = [] /\ k2 = NoMarker) \/ marker_word w14 k2 ->
  to_choice e w6 w14 (on_clock k h) h2 = Ret x -> range_end k k2 h2 (fst x) /\ (if snd x : bool then on_clock k h + 12 else on_clock k h) = range_start k h k2.
Proof.
  intros F G6 G14 X. unfold to_choice in X. destruct G14 as [[-> ->]|G14].
  - cbn [is_nil negb] in X. destruct G6 as [[-> ->]|G6].
    + cbn [is_nil] in X. destruct (read_uninit e) as [c| | | |]; try discriminate. apply ret_inj in X. subst x. cbn [fst snd]. split; [|reflexivity].
      unfold range_end, meridiem. destruct (Ascii.eqb c "a") eqn:Ca.
      * apply Ascii.eqb_eq in Ca. subst c. exists Am. cbn. destruct (h2 =? 12); reflexivity.
      * destruct (Ascii.eqb c "p"); [exists Pm; cbn; destruct (h2 =? 12) eqn:E; [lia|reflexivity]|exists NoMarker; reflexivity].
    + destruct (marker_nonempty _ _ G6) as [N6 Nk]. assert (Z : is_nil w6 = false) by (destruct w6; [congruence|reflexivity]). rewrite Z in X. cbn [bind] in X. apply ret_inj in X. subst x. cbn [fst snd].
      rewrite (marker_hour _ _ h2 G6). split; [destruct k; [congruence|reflexivity..]|destruct k; [congruence|reflexivity..]].
  - destruct (marker_nonempty _ _ G14) as [N14 Nk]. assert (Z : is_nil w14 = false) by (destruct w14; [congruence|reflexivity]). rewrite Z in X. cbn [negb] in X.
    unfold read_dangling in X. destruct (F (first_char w14)) as [Fn|Fs]; [rewrite Fn in X; discriminate|]. rewrite Fs in X. cbn [bind] in X.
    assert (N6 : is_nil w6 = true <-> k = NoMarker).
    { destruct G6 as [[-> ->]|G6]; [tauto|]. destruct (marker_nonempty _ _ G6). destruct w6; [congruence|]. cbn. split; [discriminate|congruence]. }
    pose proof (marker_hour _ _ h2 G14) as Mh. unfold meridiem in Mh. cbv zeta in Mh.
    assert (R : range_end k k2 h2 (on_clock k2 h2)) by (destruct k2; [congruence|reflexivity..]).
    destruct (Ascii.eqb (first_char w14) "p") eqn:Cp; apply ret_inj in X; subst x; cbn [fst snd]; rewrite Mh; split; try exact R.
    + assert (k2 = Pm) as ->.
      { destruct G14 as [v I|v I|s Fs']; [|reflexivity|discriminate]. cbn in I; decompose [or] I; try contradiction; subst v; discriminate. }
      destruct k; cbn [range_start]; try (destruct (is_nil w6) eqn:Zn; [apply proj1 in N6; specialize (N6 eq_refl); discriminate|reflexivity]).
      replace (is_nil w6) with true by (symmetry; apply N6; reflexivity). cbn [on_clock andb]. destruct (h =? 12) eqn:E; [cbn; lia|reflexivity].
    + assert (k2 <> Pm).
      { intros ->. inversion G14 as [|v I|]; subst. cbn in I; decompose [or] I; try contradiction; subst v; discriminate. }
      destruct k, k2; try reflexivity; congruence.
Qed.
Lemma clock_extracted e g tx m t us idx r : faithful e -> real_instant t us -> low tx -> search true time_expression_re tx = Some m ->
  time_expression_extract e g tx m (ptime_of t us) idx = Ret r -> hasPossibleDates r = true -> clock_result t (r_text r) r.
Proof.
  intros F H Lw Sm X P. destruct (clock_match _ _ Sm Lw) as (intro & c1 & k & gap & rest & E & Op & Cf & Gs & _ & Hg & G7 & Hr).
  pose proof (clock_start e g tx m t us idx intro c1 k gap rest H Sm E Cf Gs G7) as St. cbv zeta in St.
  destruct St as [[Nf Y]|[(Sf & Nt & Y)|(Sf & h & mi & Ct & Y)]]; rewrite Y in X; clear Y.
  - apply ret_inj in X. subst r. discriminate.
  - apply ret_inj in X. subst r. exists intro, c1, k, gap, rest. cbn [r_text with_start res_new]. do 4 (split; [auto|]). left. split; [exact Nt|]. split; [reflexivity|].
    unfold second_only in *. destruct (ck_sec k) as [|c ss] eqn:Es; [discriminate|]. unfold seconds_fine in Sf. rewrite Es in Sf. destruct Sf as [Sf|Sf]; [discriminate|].
    split; [comps|]. split; [split; [|exact Sf]|comps].
    assert (D : digits (c :: ss)). { destruct Cf as (p & q & _ & _ & Mp & _). rewrite Es in Mp. inversion Mp; subst; assumption. }
    pose proof (decimal_bounds _ D) as [B _]. unfold hasPossibleDates in P. cbn [r_start with_start r_hasend res_new] in P.
    change (getSeconds (setSeconds (decimal (c :: ss)) pc_default)) with (decimal (c :: ss)) in P.
    change (getYear (setSeconds (decimal (c :: ss)) pc_default)) with 0 in P. change (getMonth (setSeconds (decimal (c :: ss)) pc_default)) with 0 in P.
    change (get_mDay (setSeconds (decimal (c :: ss)) pc_default)) with 0 in P. change (getHour (setSeconds (decimal (c :: ss)) pc_default)) with 0 in P.
    change (getMinute (setSeconds (decimal (c :: ss)) pc_default)) with 0 in P. cbn [Z.eqb andb negb] in P. lia.
  - exists intro, c1, k, gap, rest.
    destruct Hr as [->|(k2 & Tt & Gs2)].
    + cbn [is_nil] in X. apply ret_inj in X. subst r. split; [reflexivity|]. do 3 (split; [auto|]). right. exists h, mi. split; [exact Ct|]. left. split; [auto|]. split; [reflexivity|]. apply stamp_at. exact Sf.
    + assert (Nr : is_nil rest = false). { destruct Tt as (s1 & w & s2 & r' & -> & _ & Tw & _). unfold to_word in Tw. cbn in Tw. decompose [or] Tw; try contradiction; subst w; destruct s1; reflexivity. }
      rewrite Nr in X. pose proof Gs as (_ & _ & _ & G6). pose proof Gs2 as (_ & _ & _ & G14).
      pose proof (clock_end e m t us rest k k2 (on_clock (ck_mark k) h) (setTag TTimeExpression (with_start (stamp t (on_clock (ck_mark k) h) mi (ck_sec k)) (res_new (ptime_of t us) idx (intro ++ c1 ++ gap ++ rest)))) H eq_refl G7 Tt Gs2 G6) as En.
      cbv zeta in En. destruct En as [[No Y]|(Nz & h2 & mi2 & Ct2 & Y)]; rewrite Y in X; clear Y.
      * apply ret_inj in X. subst r. split; [reflexivity|]. do 3 (split; [auto|]). right. exists h, mi. split; [exact Ct|]. left. split; [destruct No as [No|No]; eauto 10|]. split; [reflexivity|]. apply stamp_at. exact Sf.
      * apply bind_ret in X as (x & Ch & X). cbv zeta in X. destruct (choice_says _ _ _ _ _ _ _ _ F G6 G14 Ch) as [Re Rs]. apply ret_inj in X.
        assert (Q : forall b, match ck_sec k2 with [] => true | ss => decimal ss <? 60 end = b -> if b then seconds_fine k2 else ~ seconds_fine k2).
        { intros b Eb. unfold seconds_fine. destruct (ck_sec k2); [subst b; auto|]. destruct b; [right; lia|]. intros [N|N]; [discriminate|lia]. }
        specialize (Q _ eq_refl).
        assert (T1 : r_text r = intro ++ c1 ++ gap ++ rest). { subst r. destruct (match ck_sec k2 with [] => true | _ => _ end), (snd x); reflexivity. }
        split; [exact T1|]. do 3 (split; [auto|]). right. exists h, mi. split; [exact Ct|]. right. split; [exact Nz|]. exists k2, h2, mi2. split; [exact Tt|]. split; [exact Ct2|].
        split.
        { subst r. assert (A : at_time t k (range_start (ck_mark k) h (ck_mark k2)) mi (r_start (if snd x : bool then on_start (setHour (on_clock (ck_mark k) h + 12))
              (setTag TTimeExpression (with_start (stamp t (on_clock (ck_mark k) h) mi (ck_sec k)) (res_new (ptime_of t us) idx (intro ++ c1 ++ gap ++ rest))))
              else (setTag TTimeExpression (with_start (stamp t (on_clock (ck_mark k) h) mi (ck_sec k)) (res_new (ptime_of t us) idx (intro ++ c1 ++ gap ++ rest))))))).
          { rewrite <- Rs. destruct (snd x); [apply (stamp_at_moved t k _ _ mi Sf)|apply (stamp_at t k _ mi Sf)]. }
          destruct (match ck_sec k2 with [] => true | _ => _ end); exact A. }
        destruct (match ck_sec k2 with [] => true | _ => _ end).
        { left. split; [exact Q|]. subst r. split; [reflexivity|]. exists (fst x). split; [exact Re|]. apply stamp_at. exact Q. }
        { right. split; [exact Q|]. subst r. destruct (snd x); reflexivity. }
Qed.

(** C66 (and C43, C45) for every result of every text: its text is a written time, possibly with "at"/"from" before and a second time behind it.  If the
    written time does not exist only the seconds are recorded.  Otherwise the result is that time with am/pm applied, on the reference date, and the
    end is the second time, with its own marker or else that of the first.  (For C43: with "pm" on the second time only, the start can
    be as late as 36, see C43_hours_refuted; a time that does not exist is not refused if it has seconds.) *)
Theorem C66_every_time : forall e text t us rs res, sane e -> faithful e -> real_instant t us ->
  x_res (execute e time_expression gwords_init text (ptime_of t us)) = Ret rs -> In res rs -> clock_result t (r_text res) res.
Proof.
  intros e text t us rs res He F H X I.
  destruct (results_from_pure e time_expression_pattern time_expression_extract gwords_init text _ rs res time_expression_re He in_time_expression time_expression_compile X I)
    as (off & m & r0 & Sm & L & Xr & P & ->).
  pose proof (clock_extracted e _ _ m t us _ r0 F H L Sm Xr P) as (intro & c1 & k & gap & rest & E & Op & Cf & Hg & Q).
  destruct (copy_preserves r0) as (_ & _ & Tx & _ & En & St & Ed & _). cbv zeta in *.
  exists intro, c1, k, gap, rest. rewrite Tx, En, St. do 4 (split; [assumption|]).
  destruct Q as [Q|(h & mi & Ct & Q)]; [left; exact Q|right]. exists h, mi. split; [exact Ct|].
  destruct Q as [Q|(Nz & k2 & h2 & mi2 & Tt & Ct2 & A & Q)]; [left; exact Q|right]. split; [exact Nz|]. exists k2, h2, mi2. do 3 (split; [assumption|]).
  destruct Q as [(S2 & E2 & A2)|Q]; [left; rewrite (Ed E2); auto|right; exact Q].
Qed.
Print Assumptions C66_every_time.

(** Part of C43 (missing: results whose text has a second part).  The start hour is on the clock unless "pm" stands on the second time only, and a marker on the start is always honoured. *)
Theorem C43_hours_partial : forall e text t us rs res, sane e -> faithful e -> real_instant t us ->
  x_res (execute e time_expression gwords_init text (ptime_of t us)) = Ret rs -> In res rs -> has_end res = false -> (forall w, to_word w -> ~ occurs w (r_text res)) ->
  0 <= getHour (r_start res) <= 24 /\ 0 <= getMinute (r_start res) < 60 /\ 0 <= getSeconds (r_start res) < 60.
Proof.
  intros e text t us rs res He F H X I Ne No. destruct (C66_every_time e text t us rs res He F H X I) as (intro & c1 & k & gap & rest & E & _ & Cf & _ & Q).
  destruct Q as [(_ & _ & [_ S1] & S2 & U)|(h & mi & Ct & Q)].
  - unfold untouched in U. inversion U as [|? ? _ U1]; inversion U1 as [|? ? _ U2]; inversion U2 as [|? ? _ U3]; inversion U3 as [|? ? _ U4]; inversion U4 as [|? ? [_ [_ A]] U5]; inversion U5 as [|? ? [_ [_ B]] _]. cbn [api_get] in *. lia.
  - assert (A : at_time t k (on_clock (ck_mark k) h) mi (r_start res)).
    { destruct Q as [(_ & _ & A)|(_ & k2 & h2 & mi2 & Tt & _)]; [exact A|]. exfalso. destruct Tt as (s1 & w & s2 & r & -> & _ & Tw & _). apply (No w Tw).
      exists (intro ++ c1 ++ gap ++ s1), (s2 ++ r). rewrite E, <- !app_assoc. reflexivity. }
    destruct A as ([_ A1] & [_ A2] & A3 & _). cbn [api_get] in *. destruct Ct as (Ts & C1 & C2 & C3). pose proof (time_nonneg _ _ _ _ Ts) as [N1 N2].
    assert (0 <= on_clock (ck_mark k) h <= 24). { destruct (ck_mark k) eqn:M; cbn; [lia| | |lia]; specialize (C3 ltac:(discriminate)); destruct (h =? 12) eqn:Z; lia. }
    assert (0 <= getSeconds (r_start res) < 60).
    { unfold clock_seconds in A3. destruct (ck_sec k) as [|c ss] eqn:Es; [destruct A3 as (_ & _ & A3); cbn [api_get] in A3; lia|]. destruct A3 as ([_ A3] & A4). cbn [api_get] in A3. rewrite A3.
      destruct Cf as (p & q & _ & _ & Mp & _). rewrite Es in Mp. assert (D : digits (c :: ss)) by (inversion Mp; subst; assumption). pose proof (decimal_bounds _ D). lia. }
    lia.
Qed.
Print Assumptions C43_hours_partial.
(** C43 is false of ranges: "24 to 5 pm" starts at hour 36 (and so ends before it starts), and of times that do not exist: "25:12:30" is half past midnight and 30 seconds. *)
Theorem C43_hours_refuted : exists r r', let t := Moment (Cal 2024 1 2) 12 0 0 in real_instant t 0 /\
  x_res (execute (benign_env "x") time_expression gwords_init (bs "24 to 5 pm") (ptime_of t 0)) = Ret [r] /\ getHour (r_start r) = 36 /\ toDate r = Ret (bs "2024-Jan-03 12:00:00 - 2024-Jan-02 17:00:00") /\
  x_res (execute (benign_env "x") time_expression gwords_init (bs "25:12:30") (ptime_of t 0)) = Ret [r'] /\ fst (known (r_start r') "hour") = false /\ getSeconds (r_start r') = 30.
Proof.
  eexists _, _. cbv zeta. split; [inst|]. split; [vm_compute; reflexivity|]. split; [vm_compute; reflexivity|]. split; [vm_compute; reflexivity|]. split; [vm_compute; reflexivity|]. split; [vm_compute; reflexivity|]. vm_compute; reflexivity.
Qed.
Print Assumptions C43_hours_refuted.

(** ** A single time *)
Lemma no_lead e g tx m t us idx i c k : real_instant t us -> search true time_expression_re tx = Some m -> m_str m = i ++ c -> clock_form colon_mark c k ->
  grp m 1 = [] -> grp m 2 = ck_hour k -> grp m 3 = ck_min k -> grp m 4 = ck_sec k -> ((grp m 6 = [] /\ ck_mark k = NoMarker) \/ marker_word (grp m 6) (ck_mark k)) -> grp m 7 = [] ->
  let r0 := res_new (ptime_of t us) idx (i ++ c) in
  let X := time_expression_extract e g tx m (ptime_of t us) idx in
  (~ seconds_fine k /\ X = Ret r0) \/
  (seconds_fine k /\ (forall h mi, ~ clock_time k h mi) /\ X = Ret (with_start (second_only (ck_sec k)) r0)) \/
  (seconds_fine k /\ exists h mi, clock_time k h mi /\ X = Ret (setTag TTimeExpression (with_start (stamp t (on_clock (ck_mark k) h) mi (ck_sec k)) r0))).
Proof.
  intros H Sm E Cf G1 G2 G3 G4 G6 G7. pose proof (clock_start e g tx m t us idx i c k [] [] H Sm) as C. rewrite G1, !app_nil_r in C. cbn [app is_nil] in C. apply C; auto. repeat split; assumption.
Qed.
Lemma execute_dropped e p g text ref r m g' res : (forall n, ev_stale e n = Some n) -> compile (p_pattern p) = Some r -> (1 <= min_len r)%nat ->
  search true r (to_lower text) = Some m -> m_pos m = 0%nat -> m_str m = to_lower text ->
  p_extract p e g (to_lower text) m ref 0 = (g', Ret res) -> hasPossibleDates res = false ->
  execute e p g text ref = {| x_words := g'; x_text := to_lower text; x_res := Ret [] |}.
Proof.
  intros Hst C Hr Sm Hp Hs X P. unfold execute. rewrite C. cbn [exec_loop]. pose proof (search_bounds _ _ _ Hr Sm) as B. rewrite Sm, Hp, Hs in *.
  replace (0 + List.length (to_lower text) - List.length (to_lower text))%nat with 0%nat by lia. cbn [Z.of_nat]. rewrite X, P.
  rewrite substr_from_ok by lia. cbn [bind]. unfold read_stale. rewrite Hst. cbn [bind]. rewrite substr_from_ok by lia. rewrite skipn_all2 by lia.
  destruct (List.length (to_lower text)) eqn:L; cbn [exec_loop]; [lia|rewrite search_nil by exact Hr; reflexivity].
Qed.
Lemma phrase_form c k : clock_phrase c k -> clock_form colon_mark c k.
Proof.
  intros (p & q & -> & Hh & Mp & _ & Hk). exists p, q. split; [reflexivity|]. split; [exact Hh|]. split; [exact Mp|].
  destruct Hk as [[-> ->]|(sp & w & -> & B & I)]; [constructor|]. constructor; [revert B; apply Forall_impl; intros x ->; reflexivity|].
  cbn in I; decompose [or] I; try contradiction; match goal with E : (_, _) = (_, _) |- _ => injection E as <- <- end;
      first [apply (mw_am "a"); cbn; tauto | apply (mw_am "am"); cbn; tauto | apply (mw_am "a.m"); cbn; tauto | apply (mw_am "a.m."); cbn; tauto
            | apply (mw_pm "p"); cbn; tauto | apply (mw_pm "pm"); cbn; tauto | apply (mw_pm "p.m"); cbn; tauto | apply (mw_pm "p.m."); cbn; tauto
            | apply (mw_oclock (bs "'")); repeat constructor | apply (mw_oclock []); constructor | apply (mw_oclock (bs " ")); repeat constructor ].
Qed.
(** C65 (and C43) for a text that is a time: one result, for any build, with the hour 12 am = 0, 12 pm = 12, N pm = N + 12. *)
Theorem C65_clock_phrase : forall e text t us i c k h mi, real_instant t us -> to_lower text = i ++ c -> opening_phrase i -> clock_phrase c k -> clock_time k h mi -> seconds_fine k ->
  exists res, x_res (execute e time_expression gwords_init text (ptime_of t us)) = Ret [res] /\ r_text res = to_lower text /\ r_index res = 0 /\ has_end res = false /\
    at_time t k (on_clock (ck_mark k) h) mi (r_start res).
Proof.
  intros e text t us i c k h mi H E Hi Hc Ct Sf. destruct (clock_found i c k Hi Hc) as (m & Sm & Pm & Em & G1 & G2 & G3 & G4 & G6 & G7). rewrite <- E in Sm, Em.
  pose proof (no_lead e gwords_init (to_lower text) m t us 0 i c k H Sm (eq_trans Em E) (phrase_form _ _ Hc) G1 G2 G3 G4 G6 G7) as X. cbv zeta in X.
  destruct X as [[N _]|[(_ & N & _)|(_ & h' & mi' & Ct' & X)]]; [contradiction|exfalso; exact (N _ _ Ct)|].
  assert (h' = h /\ mi' = mi) as [-> ->]. { destruct Ct as [A _], Ct' as [B _]. exact (time_inj _ _ _ _ _ _ B A). }
  exists (res_copy (setTag TTimeExpression (with_start (stamp t (on_clock (ck_mark k) h) mi (ck_sec k)) (res_new (ptime_of t us) 0 (to_lower text))))). split.
  - rewrite (execute_whole e time_expression gwords_init text (ptime_of t us) time_expression_re m gwords_init (setTag TTimeExpression (with_start (stamp t (on_clock (ck_mark k) h) mi (ck_sec k)) (res_new (ptime_of t us) 0 (to_lower text)))) time_expression_compile ltac:(apply Nat.leb_le; vm_compute; reflexivity) Sm Pm Em).
    + reflexivity.
    + cbn [p_extract time_expression]. unfold pure_extract. rewrite X, <- E. reflexivity.
    + apply (real_month_possible _ (cm (mdate t))); [|apply H]. cbn [r_start setTag with_start]. destruct (ck_sec k); reflexivity.
  - split; [reflexivity|]. split; [reflexivity|]. split; [reflexivity|]. apply stamp_at. exact Sf.
Qed.
Print Assumptions C65_clock_phrase.
(** A text that is a time which does not exist ("25:30", "13 pm", "5:60") yields nothing (given that invalidated iterators are harmless). *)
Theorem C65_no_such_time : forall e text t us i c k, real_instant t us -> (forall n, ev_stale e n = Some n) -> to_lower text = i ++ c -> opening_phrase i -> clock_phrase c k ->
  (forall h mi, ~ clock_time k h mi) -> ck_sec k = [] ->
  x_res (execute e time_expression gwords_init text (ptime_of t us)) = Ret [].
Proof.
  intros e text t us i c k H Hst E Hi Hc Nt Es. destruct (clock_found i c k Hi Hc) as (m & Sm & Pm & Em & G1 & G2 & G3 & G4 & G6 & G7). rewrite <- E in Sm, Em.
  pose proof (no_lead e gwords_init (to_lower text) m t us 0 i c k H Sm (eq_trans Em E) (phrase_form _ _ Hc) G1 G2 G3 G4 G6 G7) as X. cbv zeta in X.
  destruct X as [[N _]|[(_ & _ & X)|(_ & h' & mi' & Ct' & _)]]; [exfalso; apply N; left; exact Es| |exfalso; exact (Nt _ _ Ct')].
  rewrite (execute_dropped e time_expression gwords_init text (ptime_of t us) time_expression_re m gwords_init _ Hst time_expression_compile ltac:(apply Nat.leb_le; vm_compute; reflexivity) Sm Pm Em
    ltac:(cbn [p_extract time_expression]; unfold pure_extract; rewrite X; reflexivity)); [reflexivity|]. rewrite Es. reflexivity.
Qed.
Print Assumptions C65_no_such_time.
Example C65_case : exists r, let t := Moment (Cal 2024 2 29) 5 6 7 in let k := Clock (bs "12") (bs "30") [] Am in real_instant t 1 /\
  to_lower (bs "At 12:30 A.M.") = bs "at " ++ bs "12:30 a.m." /\ opening_phrase (bs "at ") /\ clock_phrase (bs "12:30 a.m.") k /\ clock_time k 12 30 /\ seconds_fine k /\ on_clock Am 12 = 0 /\
  x_res (execute strict_env time_expression gwords_init (bs "At 12:30 A.M.") (ptime_of t 1)) = Ret [r] /\ toDate r = Ret (bs "2024-Feb-29 00:30:00") /\
  (let k' := Clock (bs "13") [] [] Pm in clock_phrase (bs "13 pm") k' /\ forall h mi, ~ clock_time k' h mi).
Proof.
  eexists. cbv zeta. split; [inst|]. split; [reflexivity|]. split; [right; exists (bs " "); split; [repeat constructor|left; reflexivity]|].
  split.
  { exists (bs ":30"), (bs " a.m."). split; [reflexivity|]. split; [exists 12; apply (hs_digits (bs "12")); [repeat constructor|cbn; lia]|]. split; [apply (mp_minutes _ (bs ":") (bs "30")); [right; left; reflexivity|repeat constructor|cbn; lia]|].
    split; [cbn; lia|]. right. exists (bs " "), "a.m.". split; [reflexivity|]. split; [repeat constructor|cbn; tauto]. }
  split.
  { split; [apply (ts_minutes (bs "12") (bs "30") 12); [apply (hs_digits (bs "12")); [repeat constructor|cbn; lia]|repeat constructor|cbn; lia]|]. cbn. lia. }
  split; [left; reflexivity|]. split; [reflexivity|]. split; [vm_compute; reflexivity|]. split; [vm_compute; reflexivity|]. split.
  { exists [], (bs " pm"). split; [reflexivity|]. split; [exists 13; apply (hs_digits (bs "13")); [repeat constructor|cbn; lia]|]. split; [constructor|]. split; [cbn; lia|]. right. exists (bs " "), "pm". split; [reflexivity|]. split; [repeat constructor|cbn; tauto]. }
  intros h mi (T & _ & _ & L). cbn in T, L. assert (ts : time_says (bs "13") [] 13 0) by (apply ts_hour; [apply (hs_digits (bs "13")); [repeat constructor|cbn; lia]|lia]).
  destruct (time_inj _ _ _ _ _ _ T ts) as [-> _]. specialize (L ltac:(discriminate)). lia.
Qed.

(** ** Two times *)
Lemma am_pm_marks q k : mark_phrase am_pm q k -> mark_phrase marks q k.
Proof. intros [A|(sp & w & A & B & I)]; [left; exact A|right]. exists sp, w. split; [exact A|]. split; [exact B|]. cbn in I |- *. tauto. Qed.
Lemma simple_form dm c k : simple_clock c k -> clock_form dm c k.
Proof.
  intros (p & q & -> & Hh & _ & Es & Mp & Hk). exists p, q. split; [reflexivity|]. split; [exact Hh|]. split.
  - rewrite Es. destruct Mp as [[-> ->]|(-> & D & L)]; [constructor|]. constructor; [right; left; reflexivity|exact D|lia].
  - apply am_pm_marks in Hk. destruct (phrase_form (ck_hour k ++ [] ++ q) (Clock (ck_hour k) [] [] (ck_mark k))) as (p' & q' & E & _ & M & K).
    { exists [], q. split; [reflexivity|]. split; [exact Hh|]. split; [constructor|]. split; [cbn; lia|exact Hk]. }
    cbn [ck_hour ck_min ck_sec ck_mark] in *. inversion M; subst; try (match goal with L : (1 <= List.length (@nil ascii) <= 2)%nat |- _ => cbn in L; lia end). apply app_inv_head in E. cbn in E. subst q'. exact K.
Qed.
Lemma zone_more s x : spaces s -> looks_like_zone x -> looks_like_zone (s ++ x).
Proof.
  intros B (s1 & w & s2 & d & -> & B1 & Q). exists (s ++ s1), w, s2, d. split; [rewrite <- app_assoc; reflexivity|]. split; [|exact Q]. apply Forall_app. split; [|exact B1].
  revert B. apply Forall_impl. intros c E. apply Ascii.eqb_eq in E. subst c. reflexivity.
Qed.
(** what the range phrase leads to *)
Lemma range_extract e text t us i c1 k1 s c2 k2 h1 m1 h2 m2 : real_instant t us -> to_lower text = i ++ c1 ++ s ++ c2 -> range_opening i -> simple_clock c1 k1 -> range_separator s ->
  simple_clock c2 k2 -> digits (ck_hour k2) -> clock_time k1 h1 m1 -> clock_time k2 h2 m2 -> ~ looks_like_zone (s ++ c2) ->
  exists m, search true time_expression_re (to_lower text) = Some m /\ m_pos m = 0%nat /\ m_str m = to_lower text /\
    ((grp m 6 = [] /\ ck_mark k1 = NoMarker) \/ marker_word (grp m 6) (ck_mark k1)) /\ ((grp m 14 = [] /\ ck_mark k2 = NoMarker) \/ marker_word (grp m 14) (ck_mark k2)) /\
    time_expression_extract e gwords_init (to_lower text) m (ptime_of t us) 0 =
      (x <- to_choice e (grp m 6) (grp m 14) (on_clock (ck_mark k1) h1) h2 ;;
       let r1 := setTag TTimeExpression (with_start (stamp t (on_clock (ck_mark k1) h1) m1 []) (res_new (ptime_of t us) 0 (to_lower text))) in
       Ret (ended t (fst x) m2 [] (if snd x : bool then on_start (setHour (on_clock (ck_mark k1) h1 + 12)) r1 else r1))).
Proof.
  intros H E Hi H1 Hs H2 D2 T1 T2 Nz. destruct (range_found i c1 k1 s c2 k2 Hi H1 Hs H2 D2) as (m & s2 & Sm & Pm & Em & G1 & G2 & G3 & G4 & G6 & (s1 & Es & B1) & G7 & N2 & G10 & G11 & G12 & G14).
  rewrite <- E in Sm, Em. exists m. split; [exact Sm|]. split; [exact Pm|]. split; [exact Em|]. split; [exact G6|]. split; [exact G14|].
  assert (S1 : ck_sec k1 = []) by (destruct H1 as (? & ? & _ & _ & _ & X & _); exact X). assert (S2 : ck_sec k2 = []) by (destruct H2 as (? & ? & _ & _ & _ & X & _); exact X).
  pose proof (clock_start e gwords_init (to_lower text) m t us 0 i c1 k1 s1 (s2 ++ c2) H Sm) as C. rewrite G1 in C. cbn [app] in C. rewrite Em, E, Es, <- app_assoc in C.
  specialize (C eq_refl (simple_form _ _ _ H1)). unfold groups_say in C. rewrite S1 in C. specialize (C (conj G2 (conj G3 (conj G4 G6))) G7). cbv zeta in C.
  destruct C as [[N _]|[(_ & N & _)|(_ & h' & mi' & Ct & X)]]; [exfalso; apply N; left; exact S1|exfalso; exact (N _ _ T1)|].
  assert (h' = h1 /\ mi' = m1) as [-> ->]. { destruct Ct as [A _], T1 as [B _]. exact (time_inj _ _ _ _ _ _ A B). }
  assert (Nr : is_nil (s2 ++ c2) = false) by (destruct s2; [congruence|reflexivity]). rewrite Nr in X.
  assert (Er : i ++ c1 ++ s1 ++ s2 ++ c2 = to_lower text) by (rewrite E, Es, <- app_assoc; reflexivity).
  rewrite Er in X. rewrite <- Er in X at 1. rewrite Er in X. rewrite X.
  assert (Tt : to_text (s2 ++ c2) k2).
  { destruct Hs as (a & w & b & Ew & Ba & Bb & Tw). assert (Q : exists a', s2 = a' ++ w ++ b /\ blanks a').
    { assert (Iw : In w [bs "-"; bs "–"; bs "~"; bs "to"]) by (destruct Tw as [Tw|[-> _]]; cbn in *; tauto). clear - Es Ew Ba B1 Iw. rewrite Es in Ew. clear Es. revert a Ew Ba. induction s1 as [|c s1 IH]; intros a Ew Ba.
      - exists a. split; [exact Ew|]. revert Ba. apply Forall_impl. intros x ->. reflexivity.
      - inversion B1 as [|? ? Hc B1']; subst. apply Ascii.eqb_eq in Hc. subst c. destruct a as [|c a]; cbn [app] in Ew.
        + exfalso. cbn in Iw; decompose [or] Iw; try contradiction; subst w; discriminate.
        + injection Ew as _ Ew. inversion Ba; subst. apply (IH B1' a Ew). assumption. }
    destruct Q as (a' & Ea & Ba'). exists a', w, b, c2. split; [rewrite Ea, <- !app_assoc; reflexivity|]. split; [exact Ba'|]. split; [destruct Tw as [Tw|[-> _]]; unfold to_word; cbn in *; tauto|].
    split; [revert Bb; apply Forall_impl; intros x ->; reflexivity|]. split; [exact D2|apply simple_form; exact H2]. }
  assert (Gs2 : groups_say m 10 11 12 14 k2) by (unfold groups_say; rewrite S2; auto).
  pose proof (clock_end e m t us (s2 ++ c2) k1 k2 (on_clock (ck_mark k1) h1) (setTag TTimeExpression (with_start (stamp t (on_clock (ck_mark k1) h1) m1 []) (res_new (ptime_of t us) 0 (to_lower text)))) H eq_refl G7 Tt Gs2 G6) as En.
  cbv zeta in En. destruct En as [[[Z|N] _]|(_ & h' & mi' & Ct2 & Y)].
  - exfalso. apply Nz. rewrite Es, <- app_assoc. apply zone_more; assumption.
  - exfalso. exact (N _ _ T2).
  - assert (h' = h2 /\ mi' = m2) as [-> ->]. { destruct Ct2 as [A _], T2 as [B _]. exact (time_inj _ _ _ _ _ _ A B). }
    rewrite Y, S2. reflexivity.
Qed.

Definition range_result (t : moment) (tx : bytes) (k1 k2 : clock) (h1 m1 m2 hour2 : Z) (res : result) : Prop :=
  r_text res = tx /\ r_index res = 0 /\ has_end res = true /\ at_time t k1 (range_start (ck_mark k1) h1 (ck_mark k2)) m1 (r_start res) /\ at_time t k2 hour2 m2 (r_endc res).
Lemma range_done e text t us m k1 k2 h1 m1 h2 m2 x : real_instant t us -> faithful e -> search true time_expression_re (to_lower text) = Some m -> m_pos m = 0%nat -> m_str m = to_lower text ->
  ((grp m 6 = [] /\ ck_mark k1 = NoMarker) \/ marker_word (grp m 6) (ck_mark k1)) -> ((grp m 14 = [] /\ ck_mark k2 = NoMarker) \/ marker_word (grp m 14) (ck_mark k2)) ->
  ck_sec k1 = [] -> ck_sec k2 = [] ->
  to_choice e (grp m 6) (grp m 14) (on_clock (ck_mark k1) h1) h2 = Ret x ->
  time_expression_extract e gwords_init (to_lower text) m (ptime_of t us) 0 =
      (x <- to_choice e (grp m 6) (grp m 14) (on_clock (ck_mark k1) h1) h2 ;;
       let r1 := setTag TTimeExpression (with_start (stamp t (on_clock (ck_mark k1) h1) m1 []) (res_new (ptime_of t us) 0 (to_lower text))) in
       Ret (ended t (fst x) m2 [] (if snd x : bool then on_start (setHour (on_clock (ck_mark k1) h1 + 12)) r1 else r1))) ->
  exists res, x_res (execute e time_expression gwords_init text (ptime_of t us)) = Ret [res] /\ range_end (ck_mark k1) (ck_mark k2) h2 (fst x) /\ range_result t (to_lower text) k1 k2 h1 m1 m2 (fst x) res.
Proof.
  intros H F Sm Pm Em G6 G14 S1 S2 Ch X. destruct (choice_says _ _ _ _ _ _ _ _ F G6 G14 Ch) as [Re Rs]. rewrite Ch in X. cbn [bind] in X. cbv zeta in X.
  eexists. split; [|split; [exact Re|]].
  - rewrite (execute_whole e time_expression gwords_init text (ptime_of t us) time_expression_re m gwords_init _ time_expression_compile ltac:(apply Nat.leb_le; vm_compute; reflexivity) Sm Pm Em
      ltac:(cbn [p_extract time_expression]; unfold pure_extract; rewrite X; reflexivity)); [reflexivity|].
    apply (real_month_possible _ (cm (mdate t))); [destruct (snd x); reflexivity|apply H].
  - unfold range_result. split; [destruct (snd x); reflexivity|]. split; [destruct (snd x); reflexivity|]. split; [destruct (snd x); reflexivity|].
    assert (F1 : seconds_fine k1) by (left; exact S1). assert (F2 : seconds_fine k2) by (left; exact S2). split.
    + rewrite <- Rs. pose proof (stamp_at t k1 (on_clock (ck_mark k1) h1) m1 F1) as A. pose proof (stamp_at_moved t k1 (on_clock (ck_mark k1) h1) (on_clock (ck_mark k1) h1 + 12) m1 F1) as B. rewrite S1 in A, B.
      destruct (snd x); [exact B|exact A].
    + pose proof (stamp_at t k2 (fst x) m2 F2) as A. rewrite S2 in A. destruct (snd x); exact A.
Qed.
Lemma simple_seconds c k : simple_clock c k -> ck_sec k = [].
Proof. intros (? & ? & _ & _ & _ & X & _). exact X. Qed.

(** Part of C45: a text that is a range "A to B" with a marker on at least one side is one result, with both times; a missing end marker is taken from the
    start; "pm" at the end only moves the start to the afternoon, unless it says 12.  (Missing: the "am" of the end is not carried over, as it need not be;
    "midnight" as a start is treated as the number 0, and a 24-hour end after "pm" gets 12 more, see the refutation.)  The end marker can be read only if
    the destroyed string still holds its character. *)
Theorem C45_range_partial : forall e text t us i c1 k1 s c2 k2 h1 m1 h2 m2, real_instant t us -> to_lower text = i ++ c1 ++ s ++ c2 ->
  range_opening i -> simple_clock c1 k1 -> range_separator s -> simple_clock c2 k2 -> digits (ck_hour k2) ->
  clock_time k1 h1 m1 -> clock_time k2 h2 m2 -> ~ looks_like_zone (s ++ c2) ->
  (ck_mark k1 <> NoMarker /\ ck_mark k2 = NoMarker) \/ (ck_mark k2 <> NoMarker /\ forall c, ev_dangling e c = Some c) ->
  exists res, x_res (execute e time_expression gwords_init text (ptime_of t us)) = Ret [res] /\
    range_result t (to_lower text) k1 k2 h1 m1 m2 (on_clock (match ck_mark k2 with NoMarker => ck_mark k1 | k => k end) h2) res.
Proof.
  intros e text t us i c1 k1 s c2 k2 h1 m1 h2 m2 H E Hi H1 Hs H2 D2 T1 T2 Nz Mk.
  destruct (range_extract e text t us i c1 k1 s c2 k2 h1 m1 h2 m2 H E Hi H1 Hs H2 D2 T1 T2 Nz) as (m & Sm & Pm & Em & G6 & G14 & X).
  destruct Mk as [[N1 N2]|[N2 Dg]].
  - assert (G14' : grp m 14 = []) by (destruct G14 as [[A _]|A]; [exact A|destruct (marker_nonempty _ _ A); congruence]).
    assert (G6' : marker_word (grp m 6) (ck_mark k1)) by (destruct G6 as [[_ A]|A]; [congruence|exact A]).
    assert (Ch : forall e', to_choice e' (grp m 6) (grp m 14) (on_clock (ck_mark k1) h1) h2 = Ret (meridiem (first_char (grp m 6)) h2, false)).
    { intros e'. unfold to_choice. rewrite G14'. cbn [is_nil negb]. destruct (marker_nonempty _ _ G6') as [A _]. destruct (grp m 6); [congruence|reflexivity]. }
    assert (Q : exists res, x_res (execute e time_expression gwords_init text (ptime_of t us)) = Ret [res] /\ range_result t (to_lower text) k1 k2 h1 m1 m2 (meridiem (first_char (grp m 6)) h2) res).
    { rewrite Ch in X. cbn [bind fst snd] in X. cbv zeta iota in X.
      eexists. split.
      - rewrite (execute_whole e time_expression gwords_init text (ptime_of t us) time_expression_re m gwords_init _ time_expression_compile ltac:(apply Nat.leb_le; vm_compute; reflexivity) Sm Pm Em
          ltac:(cbn [p_extract time_expression]; unfold pure_extract; rewrite X; reflexivity)); [reflexivity|].
        apply (real_month_possible _ (cm (mdate t))); [reflexivity|apply H].
      - split; [reflexivity|]. split; [reflexivity|]. split; [reflexivity|]. pose proof (simple_seconds _ _ H1) as S1. pose proof (simple_seconds _ _ H2) as S2. split.
        + rewrite N2. replace (range_start (ck_mark k1) h1 NoMarker) with (on_clock (ck_mark k1) h1) by (destruct (ck_mark k1); reflexivity).
          pose proof (stamp_at t k1 (on_clock (ck_mark k1) h1) m1 (or_introl S1)) as A. rewrite S1 in A. exact A.
        + pose proof (stamp_at t k2 (meridiem (first_char (grp m 6)) h2) m2 (or_introl S2)) as A. rewrite S2 in A. exact A. }
    destruct Q as (res & R1 & R2). exists res. split; [exact R1|]. rewrite N2. rewrite (marker_hour _ _ _ G6') in R2. exact R2.
  - assert (F : faithful e) by (intros c; right; apply Dg).
    assert (G14' : marker_word (grp m 14) (ck_mark k2)) by (destruct G14 as [[_ A]|A]; [congruence|exact A]). destruct (marker_nonempty _ _ G14') as [N14 _].
    assert (Ch : exists x, to_choice e (grp m 6) (grp m 14) (on_clock (ck_mark k1) h1) h2 = Ret x).
    { unfold to_choice. destruct (grp m 14) as [|c w]; [congruence|]. cbn [is_nil negb]. unfold read_dangling. rewrite !Dg. cbn [bind]. destruct (Ascii.eqb _ "p"); eauto. }
    destruct Ch as [x Ch]. destruct (range_done e text t us m k1 k2 h1 m1 h2 m2 x H F Sm Pm Em G6 G14 (simple_seconds _ _ H1) (simple_seconds _ _ H2) Ch X) as (res & R1 & R2 & R3).
    exists res. split; [exact R1|]. replace (on_clock _ h2) with (fst x); [exact R3|]. clear - R2 N2. destruct (ck_mark k2); [congruence|exact R2..].
Qed.
Print Assumptions C45_range_partial.
(** C45 is false: "midnight to 1 pm" starts at noon, and "5 pm to 23" ends at hour 35. *)
Theorem C45_ranges_refuted : exists r r', let t := Moment (Cal 2024 1 2) 12 0 0 in real_instant t 0 /\
  x_res (execute (benign_env "x") time_expression gwords_init (bs "midnight to 1 pm") (ptime_of t 0)) = Ret [r] /\ getHour (r_start r) = 12 /\
  x_res (execute (benign_env "x") time_expression gwords_init (bs "5 pm to 23") (ptime_of t 0)) = Ret [r'] /\ getHour (r_endc r') = 35.
Proof. eexists _, _. cbv zeta. split; [inst|]. split; [vm_compute; reflexivity|]. split; [vm_compute; reflexivity|]. split; [vm_compute; reflexivity|]. vm_compute; reflexivity. Qed.
Print Assumptions C45_ranges_refuted.
Example C45_case : exists r, let t := Moment (Cal 2024 2 29) 5 6 7 in let k1 := Clock (bs "5") (bs "30") [] NoMarker in let k2 := Clock (bs "7") [] [] Pm in real_instant t 1 /\
  to_lower (bs "From 5:30 to 7PM") = bs "from " ++ bs "5:30" ++ bs " to " ++ bs "7pm" /\ range_opening (bs "from ") /\ simple_clock (bs "5:30") k1 /\ range_separator (bs " to ") /\ simple_clock (bs "7pm") k2 /\
  digits (ck_hour k2) /\ clock_time k1 5 30 /\ clock_time k2 7 0 /\ range_start NoMarker 5 Pm = 17 /\ on_clock Pm 7 = 19 /\
  x_res (execute (benign_env "x") time_expression gwords_init (bs "From 5:30 to 7PM") (ptime_of t 1)) = Ret [r] /\ toDate r = Ret (bs "2024-Feb-29 17:30:00 - 2024-Feb-29 19:00:00").
Proof.
  eexists. cbv zeta. split; [inst|]. split; [reflexivity|]. split; [right; exists (bs " "); split; [repeat constructor|split; [discriminate|reflexivity]]|].
  split.
  { exists (bs ":30"), []. split; [reflexivity|]. split; [exists 5; apply (hs_digits (bs "5")); [repeat constructor|cbn; lia]|]. split; [cbn; lia|]. split; [reflexivity|].
    split; [right; split; [reflexivity|]; split; [repeat constructor|reflexivity]|]. left. auto. }
  split; [exists (bs " "), (bs "to"), (bs " "); split; [reflexivity|]; split; [repeat constructor|]; split; [repeat constructor|]; right; split; [reflexivity|discriminate]|].
  split.
  { exists [], (bs "pm"). split; [reflexivity|]. split; [exists 7; apply (hs_digits (bs "7")); [repeat constructor|cbn; lia]|]. split; [cbn; lia|]. split; [reflexivity|].
    split; [left; auto|]. right. exists [], "pm". split; [reflexivity|]. split; [constructor|cbn; tauto]. }
  split; [repeat constructor|]. split.
  { split; [apply (ts_minutes (bs "5") (bs "30") 5); [apply (hs_digits (bs "5")); [repeat constructor|cbn; lia]|repeat constructor|cbn; lia]|]. cbn. lia. }
  split.
  { split; [apply ts_hour; [apply (hs_digits (bs "7")); [repeat constructor|cbn; lia]|lia]|]. cbn. lia. }
  split; [reflexivity|]. split; [reflexivity|]. split; [vm_compute; reflexivity|]. vm_compute; reflexivity.
Qed.

(** ** Undefined behaviour *)
(** C44 is false, and not just in a corner: on every range without a marker the parser reads an uninitialised variable, and on every range with a marker on its
    end it reads through a dangling reference.  (An environment says what such a read yields; None: nothing, the behaviour is undefined.) *)
Theorem C44_ranges_refuted : forall e text t us i c1 k1 s c2 k2 h1 m1 h2 m2, real_instant t us -> to_lower text = i ++ c1 ++ s ++ c2 ->
  range_opening i -> simple_clock c1 k1 -> range_separator s -> simple_clock c2 k2 -> digits (ck_hour k2) ->
  clock_time k1 h1 m1 -> clock_time k2 h2 m2 -> ~ looks_like_zone (s ++ c2) ->
  (ck_mark k1 = NoMarker -> ck_mark k2 = NoMarker -> ev_uninit e = None -> x_res (execute e time_expression gwords_init text (ptime_of t us)) = UB UbUninit) /\
  (ck_mark k2 <> NoMarker -> (forall c, ev_dangling e c = None) -> x_res (execute e time_expression gwords_init text (ptime_of t us)) = UB UbDangling).
Proof.
  intros e text t us i c1 k1 s c2 k2 h1 m1 h2 m2 H E Hi H1 Hs H2 D2 T1 T2 Nz.
  destruct (range_extract e text t us i c1 k1 s c2 k2 h1 m1 h2 m2 H E Hi H1 Hs H2 D2 T1 T2 Nz) as (m & Sm & Pm & Em & G6 & G14 & X).
  assert (U : forall u, to_choice e (grp m 6) (grp m 14) (on_clock (ck_mark k1) h1) h2 = UB u -> x_res (execute e time_expression gwords_init text (ptime_of t us)) = UB u).
  { intros u Hu. rewrite Hu in X. cbn [bind] in X. unfold execute. rewrite time_expression_compile. cbn [exec_loop]. rewrite Sm, Pm, Em.
    replace (0 + List.length (to_lower text) - List.length (to_lower text))%nat with 0%nat by lia. cbn [Z.of_nat p_extract time_expression]. unfold pure_extract. rewrite X. reflexivity. }
  split.
  - intros N1 N2 Hu. apply U. unfold to_choice.
    assert (grp m 14 = []) as -> by (destruct G14 as [[A _]|A]; [exact A|destruct (marker_nonempty _ _ A); congruence]).
    assert (grp m 6 = []) as -> by (destruct G6 as [[A _]|A]; [exact A|destruct (marker_nonempty _ _ A); congruence]).
    cbn [is_nil negb]. unfold read_uninit. rewrite Hu. reflexivity.
  - intros N2 Hd. apply U. unfold to_choice. destruct G14 as [[_ A]|A]; [congruence|]. destruct (marker_nonempty _ _ A) as [B _]. destruct (grp m 14); [congruence|].
    cbn [is_nil negb]. unfold read_dangling. rewrite Hd. reflexivity.
Qed.
Print Assumptions C44_ranges_refuted.
Example C44_case : let t := Moment (Cal 2024 2 29) 5 6 7 in real_instant t 1 /\
  x_res (execute strict_env time_expression gwords_init (bs "from 5 to 6") (ptime_of t 1)) = UB UbUninit /\
  x_res (execute strict_env time_expression gwords_init (bs "from 5 to 6 pm") (ptime_of t 1)) = UB UbDangling.
Proof. cbv zeta. split; [inst|]. split; vm_compute; reflexivity. Qed.

(** the extraction, in general *)
Lemma extract_outcome e g tx m t us idx : real_instant t us -> low tx -> search true time_expression_re tx = Some m ->
  (exists r, time_expression_extract e g tx m (ptime_of t us) idx = Ret r) \/
  (grp m 7 <> [] /\ exists w, to_word w /\ occurs w tx) /\
    (time_expression_extract e g tx m (ptime_of t us) idx = UB UbUninit /\ ev_uninit e = None \/ time_expression_extract e g tx m (ptime_of t us) idx = UB UbDangling /\ exists c, ev_dangling e c = None).
Proof.
  intros H Lw Sm. destruct (clock_match _ _ Sm Lw) as (intro & c1 & k & gap & rest & E & Op & Cf & Gs & _ & Hg & G7 & Hr).
  pose proof (clock_start e g tx m t us idx intro c1 k gap rest H Sm E Cf Gs G7) as St. cbv zeta in St.
  destruct St as [[_ Y]|[(_ & _ & Y)|(_ & h & mi & Ct & Y)]]; rewrite Y; clear Y; [eauto|eauto|].
  destruct Hr as [->|(k2 & Tt & Gs2)]; [left; cbn [is_nil]; eauto|].
  assert (W : exists w, to_word w /\ occurs w tx).
  { destruct Tt as (s1 & w & s2 & r & Er & _ & Tw & _). exists w. split; [exact Tw|]. destruct (search_split _ _ _ _ Sm) as (pre & post & Et & _). exists (pre ++ grp m 1 ++ intro ++ c1 ++ gap ++ s1), (s2 ++ r ++ post).
    rewrite Et, E, Er, <- !app_assoc. reflexivity. }
  assert (Nr : is_nil rest = false). { destruct Tt as (s1 & w & s2 & r' & -> & _ & Tw & _). unfold to_word in Tw. cbn in Tw. decompose [or] Tw; try contradiction; subst w; destruct s1; reflexivity. }
  rewrite Nr. pose proof Gs as (_ & _ & _ & G6).
  pose proof (clock_end e m t us rest k k2 (on_clock (ck_mark k) h) (setTag TTimeExpression (with_start (stamp t (on_clock (ck_mark k) h) mi (ck_sec k)) (res_new (ptime_of t us) idx (intro ++ c1 ++ gap ++ rest)))) H eq_refl G7 Tt Gs2 G6) as En.
  cbv zeta in En. destruct En as [[_ Y]|(_ & h2 & mi2 & _ & Y)]; rewrite Y; clear Y; [eauto|].
  assert (Q : (exists x, to_choice e (grp m 6) (grp m 14) (on_clock (ck_mark k) h) h2 = Ret x) \/
     (to_choice e (grp m 6) (grp m 14) (on_clock (ck_mark k) h) h2 = UB UbUninit /\ ev_uninit e = None \/ to_choice e (grp m 6) (grp m 14) (on_clock (ck_mark k) h) h2 = UB UbDangling /\ exists c, ev_dangling e c = None)).
  { unfold to_choice. destruct (negb (is_nil (grp m 14))).
    - unfold read_dangling. destruct (ev_dangling e (first_char (grp m 14))) eqn:Ed; cbn [bind]; [|right; right; eauto]. left. destruct (Ascii.eqb a "p"); eauto.
    - destruct (is_nil (grp m 6)); [|left; cbn [bind]; eauto]. unfold read_uninit. destruct (ev_uninit e); cbn [bind]; [left; eauto|right; left; auto]. }
  destruct Q as [[x ->]|Q]; [left; cbn [bind]; eauto|]. right. split; [split; [rewrite G7; intros Z; rewrite Z in Nr; discriminate|exact W]|].
  destruct Q as [[-> Q]|[-> Q]]; [left|right]; cbn [bind]; auto.
Qed.
(** Part of C44 (missing: ranges): a text without a dash, tilde, question mark or "to" is parsed without reading uninitialised or destroyed memory. *)
Theorem C44_no_range_partial : forall e text t us, real_instant t us -> (forall n, ev_stale e n = Some n) -> (forall w, to_word w -> ~ occurs w (to_lower text)) ->
  exists rs, x_res (execute e time_expression gwords_init text (ptime_of t us)) = Ret rs.
Proof.
  intros e text t us H Hst No. apply (execute_total_pure e time_expression_pattern time_expression_extract time_expression_re); [apply Nat.leb_le; vm_compute; reflexivity|exact time_expression_compile|].
  intros off m idx Sm Lw. destruct (extract_outcome e gwords_init _ m t us idx H Lw Sm) as [[r X]|[(_ & w & Tw & a & b & Ew) _]]; [eauto|].
  exfalso. apply (No w Tw). exists (firstn off (to_lower text) ++ a), b. rewrite <- app_assoc, <- Ew. symmetry. apply firstn_skipn.
Qed.
Print Assumptions C44_no_range_partial.
Example C44_no_range_case : forall w, to_word w -> ~ occurs w (to_lower (bs "5:30:20 PM")).
Proof.
  intros w Tw (a & b & E). assert (Q : exists c w', w = c :: w' /\ ~ In c (to_lower (bs "5:30:20 PM"))).
  { unfold to_word in Tw. cbn in Tw. decompose [or] Tw; try contradiction; subst w; eexists; eexists; (split; [reflexivity|]); cbn; intuition discriminate. }
  destruct Q as (c & w' & -> & N). apply N. rewrite E. apply in_or_app. right. left. reflexivity.
Qed.

(** C64: in any build whose undefined reads yield something, the clock parser never throws: it returns on every text and reference. *)
Theorem C64_clock_total : forall e text t us, benign e -> real_instant t us ->
  exists rs, x_res (execute e time_expression gwords_init text (ptime_of t us)) = Ret rs.
Proof.
  intros e text t us ([c Hu] & Hd & Hst) H. apply (execute_total_pure e time_expression_pattern time_expression_extract time_expression_re); [apply Nat.leb_le; vm_compute; reflexivity|exact time_expression_compile|].
  intros off m idx Sm Lw. destruct (extract_outcome e gwords_init _ m t us idx H Lw Sm) as [[r X]|[_ [[_ N]|[_ [c' N]]]]]; [eauto|congruence|rewrite Hd in N; discriminate].
Qed.
Print Assumptions C64_clock_total.
