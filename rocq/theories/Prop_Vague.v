(** * A day beside a phrase that only suggests its date (C121, C122) *)
From Verif Require Import Base Regex RegexParse Calendar Components Utils Execute Spec View ParserSpec PhraseSpec WeekSpec MiddleSpec CalendarCycle CalendarFacts RegexFacts ResultFacts
  ExecuteFacts ParserRe MatchFacts LocateFacts HistoryFacts ParserFacts CasualFacts DeadlineFacts HolidayFacts ISOShape ISOFacts ZoneFacts MergeFacts FoundFacts OverlapFacts P_CasualDate P_CasualTime P_ISO P_Deadline P_Week P_Holiday P_MiddleEndian MiddleFacts Prop_Casual Prop_Deadline Prop_Middle Prop_Found Refiners Main Prop_Execute Prop_Refine Prop_Tags
  MainFacts Prop_Main Prop_Answers Prop_Format Prop_Times Prop_Sentence Prop_ClockAnswer Prop_DateTime Prop_Range Prop_MonthText Prop_MonthTime Prop_TimeDay Prop_MonthClock Prop_TwoDates.
From Coq Require Import ZifyBool ZifyNat ZifyN.
Open Scope string_scope.
Open Scope list_scope.
Open Scope Z_scope.

(** ** Two results and nothing else, whatever the refiners make of them *)
Lemma pair_of e sortf text ref p1 p2 pre w1 mid w2 post ans (P1 P2 : result -> Prop) : sane e -> is_sort sortf -> Z.of_nat (List.length text) < 2 ^ 31 ->
  to_lower text = pre ++ w1 ++ mid ++ w2 ++ post -> In p1 parsers -> In p2 parsers -> w1 <> [] -> w2 <> [] ->
  (forall l, alone e p1 text ref = Ret l -> exists r k, In r l /\ (getIndex r = Z.of_nat (List.length pre) /\ textLength r = Z.of_nat (List.length w1 + k) /\ (k <= List.length mid)%nat) /\ tag_is TTimeExpression r = false /\ P1 r) ->
  (forall l, alone e p2 text ref = Ret l -> exists r k, In r l /\ (getIndex r = Z.of_nat (List.length (pre ++ w1 ++ mid)) /\ textLength r = Z.of_nat (List.length w2 + k)) /\ tag_is TTimeExpression r = false /\ P2 r) ->
  only_two e text ref p1 p2 pre w1 mid w2 ->
  (forall a b, P1 a -> P2 b -> no_zone (to_lower text) a -> no_zone (to_lower text) b -> res_copy a = a -> res_copy b = b -> tag_is TExtractTZ a = false -> tag_is TExtractTZ b = false ->
     Z.of_nat (List.length (to_lower text)) < 2 ^ 31 -> 0 <= starts a -> 0 < textLength a -> 0 < textLength b -> stops a <= starts b -> stops b <= Z.of_nat (List.length (to_lower text)) ->
     (exists k, textLength b = Z.of_nat (List.length w2 + k) /\ skipn (Z.to_nat (stops b)) (to_lower text) = skipn k post) ->
     exists m rest, (rs <- tz_refine [a; b] (to_lower text) ;; rs <- mdt_refine rs (to_lower text) ;; mdr_refine rs (to_lower text)) = Ret (m :: rest) /\ toDate m = Ret ans) ->
  main e sortf gwords_init text ref = Ret (line ans).
Proof.
  intros He Hs Hn E Jp1 Jp2 Nw1 Nw2 F1 F2 Al Fin.
  assert (Hn2 : Z.of_nat (List.length text) < 2 ^ 32) by (clear - Hn; lia).
  destruct (Al p1 Jp1) as (l1 & El1 & B1). destruct (Al p2 Jp2) as (l2 & El2 & B2).
  destruct (F1 l1 El1) as (a & k1 & Ia & (Ix & La & Lk) & Ua & Pa).
  destruct (F2 l2 El2) as (b & k2 & Ib & (Iy & Lb) & Ub & Pb).
  assert (Ll : List.length (to_lower text) = List.length text) by (unfold to_lower; apply map_length).
  rewrite !app_length in Iy.
  assert (Lw1 : (0 < List.length w1)%nat) by (destruct w1; [congruence|cbn [List.length]; clear; lia]). assert (Lw2 : (0 < List.length w2)%nat) by (destruct w2; [congruence|cbn [List.length]; clear; lia]).
  assert (Apart : getIndex a + textLength a <= getIndex b) by (rewrite Ix, Iy, La; clear - Lk; lia).
  assert (A : exists rs, all_alone e parsers text ref = Ret rs).
  { assert (Q : exists rss, Forall2 (fun p l => alone e p text ref = Ret l) parsers rss).
    { assert (Al' : forall p, In p parsers -> exists l, alone e p text ref = Ret l) by (intros q0 Iq; destruct (Al q0 Iq) as (l & El & _); eexists; exact El).
      revert Al'. clear. generalize parsers as ps. induction ps as [|p ps IH]; intros Al; [exists []; constructor|]. destruct (Al p (or_introl eq_refl)) as (l & El).
      destruct IH as [rss F]; [intros q' I'; apply Al; right; exact I'|]. exists (l :: rss). constructor; assumption. }
    destruct Q as [rss F]. exists (List.concat rss). apply all_alone_ret. eauto. }
  destruct A as [rs A].
  assert (Ira : In a rs) by (apply (all_alone_in _ _ _ _ _ A); exists p1, l1; split; [exact Jp1|split; [exact El1|exact Ia]]).
  assert (Irb : In b rs) by (apply (all_alone_in _ _ _ _ _ A); exists p2, l2; split; [exact Jp2|split; [exact El2|exact Ib]]).
  assert (Cp : forall x, In x rs -> res_copy x = x).
  { intros x Ixx. apply (all_alone_in _ _ _ _ _ A) in Ixx as (p0 & l & Ip0 & Xp & Il). pose proof (execute_copies _ _ _ _ _ _ Xp) as E0.
    clear - E0 Il. induction l as [|y l IH]; [contradiction|]. cbn [map] in E0. injection E0 as E1 E2. destruct Il as [<-|Il]; auto. }
  assert (Bound : forall l r, in_order (Z.of_nat (List.length text)) l -> In r l -> getIndex r + textLength r <= Z.of_nat (List.length text)).
  { clear. intros l r O It. induction O as [|x l H1 H2 H3 O IH]; [contradiction|]. destruct It as [<-|It]; [exact H2|exact (IH It)]. }
  pose proof (C13_results_in_order _ _ _ _ _ _ He (in_all _ Jp1) Hn2 El1) as O1. pose proof (C13_results_in_order _ _ _ _ _ _ He (in_all _ Jp2) Hn2 El2) as O2.
  pose proof (Bound _ _ O1 Ia) as Ba. pose proof (Bound _ _ O2 Ib) as Bb.
  rewrite (main_two e sortf text ref rs a b He Hs A Ira Irb Apart).
  - destruct (Fin a b Pa Pb) as (m & ms & M1 & M2); auto.
    + apply untimed_no_zone. exact Ua.
    + apply untimed_no_zone. exact Ub.
    + apply (C73_no_refiner_tag e p1 gwords_init text ref l1 a TExtractTZ He (in_all _ Jp1) El1 Ia). left. reflexivity.
    + apply (C73_no_refiner_tag e p2 gwords_init text ref l2 b TExtractTZ He (in_all _ Jp2) El2 Ib). left. reflexivity.
    + rewrite Ll. exact Hn.
    + unfold starts. clear - Ix. lia.
    + clear - La Lw1. lia.
    + clear - Lb Lw2. lia.
    + rewrite Ll. exact Bb.
    + exists k2. split; [exact Lb|]. unfold stops. replace (Z.to_nat (getIndex b + textLength b)) with (List.length (pre ++ w1 ++ mid ++ w2) + k2)%nat by (rewrite !app_length, Iy, Lb; clear; lia).
      replace (to_lower text) with ((pre ++ w1 ++ mid ++ w2) ++ post) by (rewrite E, <- !app_assoc; reflexivity). apply skip_tail.
    + rewrite M1. cbn [bind show]. rewrite M2. reflexivity.
  - intros r Irr. apply (all_alone_in _ _ _ _ _ A) in Irr as (p0 & l0 & Ip0 & X0 & Il0). destruct (Al p0 Ip0) as (l & El & Bl). unfold alone in X0. rewrite El in X0. apply RelativeFacts.ret_inj in X0. subst l0.
    assert (T0 : 0 < textLength r). { pose proof (result_text _ _ _ _ _ _ _ He (in_all _ Ip0) El Il0) as T0. unfold textLength. destruct (r_text r); [congruence|cbn [List.length]; clear; lia]. }
    destruct (Bl r Il0) as [(B3 & [-> | B4])|(B3 & [-> | B4])].
    + left. rewrite El1 in El. apply RelativeFacts.ret_inj in El. subst l. apply (in_order_unique (Z.of_nat (List.length text)) l1); auto; clear - La Ix Lw1 B3; lia.
    + right. right. left. clear - La Ix Lw1 B3 B4. lia.
    + right. left. rewrite El2 in El. apply RelativeFacts.ret_inj in El. subst l. apply (in_order_unique (Z.of_nat (List.length text)) l2); auto; clear - Lb Iy Lw2 B3; lia.
    + right. right. right. clear - Lb Iy Lw2 B3 B4. lia.
Qed.
(** ** A time-only result before a date whose month is certain *)
Lemma mdt_vague_first text d t : date_only d -> time_only t -> is_certain Month (r_start d) = true -> stops t <= Z.of_nat (List.length text) -> starts t <= starts d -> isEmpty d = false ->
  has_end d = false -> has_end t = false -> no_clock (r_start d) -> exists m, mdt_refine [t; d] text = Ret [m; res_copy d] /\ MergeFacts.joined text (res_copy d) (res_copy t) m.
Proof.
  intros Dd Tt Hh S Od Ne Hd Ht Nc. unfold mdt_refine. cbn [map mdt_loop]. unfold mdt_pair. rewrite !mdt_able_val.
  change (stops (res_copy t)) with (stops t). replace (stops t <=? Z.of_nat (List.length text)) with true by lia.
  assert (E0 : isTimeOnly (res_copy d) = false) by (apply Bool.not_true_iff_false; intros Q; apply isTimeOnly_spec in Q as [Q _]; cbn [res_copy r_start] in Q; congruence).
  assert (E1 : isDateOnly (res_copy d) = true) by (apply isDateOnly_spec; exact Dd).
  assert (E2 : isTimeOnly (res_copy t) = true) by (apply isTimeOnly_spec; exact Tt). rewrite E0, E1, E2, Bool.andb_false_r. cbn [andb bind].
  assert (Mg : exists m, mdt_merge text (res_copy d) (res_copy t) = Ret m).
  { unfold mdt_merge, mdt_end. change (has_end (res_copy (res_copy d))) with (has_end d). change (has_end (res_copy (res_copy t))) with (has_end t).
    rewrite Hd, Ht. cbn [orb bind]. unfold substrZ. change (getIndex (res_copy (res_copy d))) with (starts d). change (getIndex (res_copy (res_copy t))) with (starts t).
    pose proof (textLength_nonneg t). unfold stops, starts in *.
    destruct (Z.of_nat (List.length text) <? Z.min (getIndex d) (getIndex t)) eqn:E; [lia|]. cbn [bind]. eauto. }
  destruct Mg as (m & Em). rewrite Em. cbn [bind]. rewrite isEmpty_copy, Ne. exists m. split; [reflexivity|].
  apply merged_joined; [exact Em|exact Nc|]. cbn [res_copy has_end r_hasend]. unfold has_end in Hd. rewrite Hd. discriminate.
Qed.
Lemma refined_vague_first text d t c h mi s : no_zone text d -> no_zone text t -> res_copy d = d -> res_copy t = t -> no_clock (r_start d) -> time_only t -> is_certain Month (r_start d) = true -> has_end d = false -> has_end t = false ->
  on_date (r_start d) c -> getHour (r_start t) = h -> getMinute (r_start t) = mi -> getSeconds (r_start t) = s -> real_moment (Moment c h mi s) ->
  tag_is TExtractTZ d = false -> tag_is TExtractTZ t = false -> Z.of_nat (List.length text) < 2 ^ 31 ->
  0 <= starts t -> 0 < textLength d -> 0 < textLength t -> stops t <= starts d -> stops d <= Z.of_nat (List.length text) ->
  (forall w, In w connectors -> ~ occurs w (skipn (Z.to_nat (stops d)) text)) ->
  exists m rest, (rs <- tz_refine [t; d] text ;; rs <- mdt_refine rs text ;; mdr_refine rs text) = Ret (m :: rest) /\ toDate m = Ret (bs (written (Moment c h mi s))).
Proof.
  intros Zd Zt Cd Ct Nc To Th Ed Et Od Hh Hm Hs Rm Td Tt L D0 Ld Lt Dt Ln Nw. rewrite tz_refine_total. cbn [bind map]. rewrite Cd, Ct.
  pose proof (proj1 (tz_one_spec text d) Zd) as S1. pose proof (proj1 (tz_one_spec text t) Zt) as S2. cbv zeta in S1, S2.
  set (d' := res_copy (tz_one tz_re text d)) in *. set (t' := res_copy (tz_one tz_re text t)) in *.
  destruct (same_stops _ _ S1) as (P1 & P2 & P3). destruct (same_stops _ _ S2) as (Q1 & Q2 & Q3).
  assert (To' : time_only t') by (unfold time_only; destruct S2 as (_ & _ & _ & E & _); rewrite E; exact To).
  assert (Th' : is_certain Month (r_start d') = true) by (destruct S1 as (_ & _ & _ & E & _); rewrite E; exact Th).
  assert (Nc' : no_clock (r_start d')) by (eapply same_clock; eassumption).
  assert (Hd' : has_end d' = false) by (destruct S1 as (_ & _ & _ & _ & E & _); rewrite E; exact Ed).
  assert (Ht' : has_end t' = false) by (destruct S2 as (_ & _ & _ & _ & E & _); rewrite E; exact Et).
  destruct (mdt_vague_first text d' t') as (m & Em & J); auto; [apply Nc'; cbn; tauto|unfold stops, OverlapFacts.starts in *; lia|unfold stops, OverlapFacts.starts in *; lia|apply filled_nonempty; intros E; unfold textLength in P3, Ld; rewrite E in P3; cbn in P3; lia|].
  rewrite Em. cbn [bind].
  destruct (C50_merge_moment text (res_copy d') (res_copy t') c h mi s m J) as [Dm Pr].
  { cbn [res_copy r_start]. destruct S1 as (_ & _ & _ & E & _). rewrite E. exact Od. }
  { cbn [res_copy r_start]. destruct S2 as (_ & _ & _ & E & _). rewrite E. exact Hh. }
  { cbn [res_copy r_start]. destruct S2 as (_ & _ & _ & E & _). rewrite E. exact Hm. }
  { cbn [res_copy r_start]. destruct S2 as (_ & _ & _ & E & _). rewrite E. exact Hs. }
  destruct J as (_ & _ & Jx & Jt & Je & _ & Jg).
  assert (U : u32 (Z.min (starts (res_copy d')) (starts (res_copy t'))) = starts t').
  { change (starts (res_copy d')) with (starts d'). change (starts (res_copy t')) with (starts t'). rewrite P2, Q2. clear - D0 Ld Lt Dt Ln L. unfold stops, starts in *. rewrite Z.min_r by lia. unfold u32. apply Z.mod_small. lia. }
  rewrite U in Jx.
  assert (Tl : textLength m = stops d - starts t).
  { unfold textLength. rewrite Jt, firstn_length, skipn_length. change (starts (res_copy d')) with (starts d'). change (starts (res_copy t')) with (starts t'). change (stops (res_copy d')) with (stops d'). change (stops (res_copy t')) with (stops t').
    rewrite P1, P2, Q1, Q2. clear - D0 Ld Lt Dt Ln L. unfold stops, starts in *. lia. }
  assert (Sm : solid text m). { unfold solid. unfold stops in *. unfold starts in *. rewrite Jx, Tl, Q2. clear - D0 Ld Lt Dt Ln L. lia. }
  assert (St : solid text (res_copy d')). { unfold solid. change (starts (res_copy d')) with (starts d'). change (stops (res_copy d')) with (stops d'). change (textLength (res_copy d')) with (textLength d'). rewrite P1, P2, P3. clear - D0 Ld Lt Dt Ln L. unfold stops, starts in *. lia. }
  exists (res_copy m), [res_copy m]. split.
  - apply mdr_unlinked; auto. intros (_ & _ & w & Iw & O). apply (Nw w Iw). unfold between in O. change (starts (res_copy d')) with (starts d') in O.
    assert (Sm' : stops m = stops d) by (unfold stops at 1; rewrite Tl; unfold starts in *; rewrite Jx, Q2; clear; lia). rewrite Sm', P2 in O. replace (stops d <=? starts d) with false in O by (clear - Ld; unfold stops, starts in *; lia).
    rewrite firstn_all2 in O by (clear; rewrite skipn_length; lia). exact O.
  - rewrite (toDate_same _ _ (same_copy m)). apply Pr; auto. rewrite Jg. cbn [r_tags res_copy]. destruct S1 as (_ & _ & _ & _ & _ & _ & G1). specialize (G1 TExtractTZ). rewrite Td, tag_is_tags in G1.
    destruct (r_tags d' TExtractTZ) as [b|]; [exact G1|]. destruct S2 as (_ & _ & _ & _ & _ & _ & G2). rewrite tag_is_tags. cbn [r_tags res_copy]. rewrite <- tag_is_tags, G2, Tt. reflexivity.
Qed.


(** ** Phrases that name a day and no time; phrases that only suggest their date *)
Lemma sole e p text ref l r r' : sane e -> In p all_parsers -> Z.of_nat (List.length text) < 2 ^ 32 -> alone e p text ref = Ret l -> In r l -> In r' l -> getIndex r = getIndex r' -> r' = r.
Proof.
  intros He Ip Hn El I I' Ix. pose proof (result_text _ _ _ _ _ _ _ He Ip El I) as T1. pose proof (result_text _ _ _ _ _ _ _ He Ip El I') as T2.
  assert (Q1 : 0 < textLength r) by (unfold textLength; destruct (r_text r); [congruence|cbn [List.length]; clear; lia]). assert (Q2 : 0 < textLength r') by (unfold textLength; destruct (r_text r'); [congruence|cbn [List.length]; clear; lia]).
  apply (in_order_unique (Z.of_nat (List.length text)) l); auto; [apply (C13_results_in_order _ _ _ _ _ _ He Ip Hn El)|]. rewrite <- Ix. clear - Q1. lia.
Qed.
Lemma implied_uncertain f v p : implied_is f v p -> is_certain f p = false.
Proof. intros (A & _). exact A. Qed.
Lemma unset_uncertain l f p : untouched l p -> In f l -> is_certain f p = false.
Proof. unfold untouched. rewrite Forall_forall. intros U I. apply (U f I). Qed.
Lemma clock_uncertain p : is_certain Hour p = false -> is_certain Min p = false -> is_certain Sec p = false -> no_clock p.
Proof. intros A B C f [<-|[<-|[<-|[]]]]; assumption. Qed.

Definition clockless (w : bytes) : Prop := w <> bs "now" /\ ~ In ":"%char w.
Definition daily : list parser := [casual_date; casual_time; deadline; iso; week].
Definition vague : list parser := [casual_time; deadline; week].
Lemma vague_daily p : In p vague -> In p daily.
Proof. cbn. tauto. Qed.
Lemma daily_plain p : In p daily -> In p [casual_date; casual_time; deadline; iso; holiday; week].
Proof. cbn. tauto. Qed.
Lemma daily_no_clock e text t us p pre w post mo l res sp : sane e -> real_instant t us -> neighbours (mdate t) -> Z.of_nat (List.length text) < 2 ^ 32 ->
  to_lower text = pre ++ w ++ post -> separate pre post -> phrase_says t p pre w post mo -> real_moment mo -> In p daily -> clockless w -> blanks sp -> alone e p text (ptime_of t us) = Ret l ->
  In res l -> stands res pre (w ++ sp) -> no_clock (r_start res).
Proof.
  intros He H N Hn E Sp Ps Rm Ip [W1 W2] Bs El I St.
  assert (Same : forall r', In r' l -> stands r' pre w -> r' = res).
  { intros r' I' St'. apply (sole e p text (ptime_of t us) l res r' He); auto; [apply in_all, plain_in, daily_plain; exact Ip|]. destruct St as [Ix _], St' as [Ix' _]. congruence. }
  assert (Cas : p = casual_date -> no_clock (r_start res)).
  { intros ->. destruct (C18_casual_dates e gwords_init text t us l res He H El I) as (_ & _ & M).
    destruct M as [(X & _)|[(_ & _ & V)|[(_ & _ & Hh & V)|[(s & c & _ & _ & _ & _ & _ & Hh & V)|[(s & c & _ & _ & _ & _ & _ & Hh & V)|(s & c & _ & _ & _ & _ & _ & V)]]]]].
    - exfalso. rewrite (proj2 St) in X. destruct sp as [|x sp]; [rewrite app_nil_r in X; contradiction|]. assert (Hx : is_space (last (w ++ x :: sp) "a"%char) = true).
      { destruct (exists_last (l := x :: sp) ltac:(discriminate)) as (s' & z & Es). rewrite Es, app_assoc, last_last. unfold blanks in Bs. rewrite Es in Bs. apply Forall_app in Bs as [_ Bs]. inversion Bs; assumption. }
      rewrite X in Hx. discriminate Hx.
    - apply clock_uncertain; eapply unset_uncertain; try exact V; cbn; tauto.
    - apply clock_uncertain; [exact (implied_uncertain _ _ _ Hh)|..]; eapply unset_uncertain; try exact V; cbn; tauto.
    - apply clock_uncertain; [exact (implied_uncertain _ _ _ Hh)|..]; eapply unset_uncertain; try exact V; cbn; tauto.
    - apply clock_uncertain; [exact (implied_uncertain _ _ _ Hh)|..]; eapply unset_uncertain; try exact V; cbn; tauto.
    - apply clock_uncertain; eapply unset_uncertain; try exact V; cbn; tauto. }
  destruct Ps as [pre post|pre post|pre post|pre sp0 post c B D|pre post c D|pre w post c W D|pre w post n v u q c D1 D2 D3 D4|pre w post n v u q secs t' D1 D2 D3 D4 D5 D6 D7 D8
    |pre yy mm dd post c D1 D2 D3 D4 D5|pre yy mm dd k post c D1 D2 D3 D4 D5 D6 D7 D8 D9|pre x r sp0 post c D1 D2 D3 D4|pre kw s s1 n s2 k ws post c D1 D2 D3 D4 D5 D6 D7 D8|pre sp0 post D1 D2|pre sp0 w h post D1 D2];
    try (apply Cas; reflexivity).
  - assert (Iu : In (bs v) (map bs all_units)) by (apply in_map; apply in_or_app; left; apply (in_map fst) in D3; exact D3).
    pose proof (proj1 (proj1 H)) as Rt. pose proof (proj1 Rm) as R. cbn [mdate] in R.
    assert (Hm : forall k, q = Whole k -> k <= INT_MAX).
    { intros k ->. unfold INT_MAX. destruct u; cbn [deadline_target] in D4; try contradiction; try (destruct D4 as [_ T]; lia).
      - destruct (day_fits t k c Rt R D4) as (_ & L & _). lia.
      - destruct (day_fits t (7 * k) c Rt R D4) as (_ & L & _). lia. }
    destruct (C86_deadlines_stand e text t us pre w post n (bs v) q l He H Hn D1 D2 Iu Hm E Sp El) as (r' & I' & St' & En & U & M). rewrite <- (Same r' I' St'). specialize (M v u eq_refl D3).
    destruct (target_reached _ _ _ _ _ D4 M) as (_ & D & V). apply clock_uncertain; eapply unset_uncertain; try exact V; cbn; tauto.
  - assert (Iu : In (bs v) (map bs all_units)) by (apply in_map; apply in_or_app; left; apply (in_map fst) in D3; exact D3).
    assert (Hm : forall k, q = Whole k -> k <= INT_MAX) by (intros k Ek; specialize (D6 k Ek); unfold INT_MAX; lia).
    destruct (C86_deadlines_stand e text t us pre w post n (bs v) q l He H Hn D1 D2 Iu Hm E Sp El) as (r' & I' & St' & En & U & M). rewrite <- (Same r' I' St'). specialize (M v u eq_refl D3).
    pose proof (clock_reached _ _ _ _ _ _ D4 D5 D6 D7 M) as (D & C1 & C2 & C3). apply clock_uncertain; eapply implied_uncertain; eassumption.
  - pose proof (proj1 (proj1 Rm)) as V. unfold valid in V. cbn [mdate] in V.
    assert (B1 : 1 <= decimal mm <= 12) by (rewrite D3; lia). assert (B2 : 1 <= decimal dd <= 31) by (rewrite D4; pose proof (month_len_bounds (cy c) (cm c)); lia).
    destruct (C87_iso_stand e gwords_init text (ptime_of t us) pre yy mm dd None post l He Hn D1 B1 B2 Logic.I) as (r' & I' & St' & En & Dc & _ & U); auto.
    { unfold iso_text. rewrite app_nil_r. exact E. }
    unfold iso_text in St'. rewrite app_nil_r in St'. rewrite <- (Same r' I' St'). apply clock_uncertain; eapply unset_uncertain; try exact U; cbn; tauto.
  - exfalso. apply W2. unfold clock_text. rewrite !in_app_iff. cbn. tauto.
  - exfalso. cbn in Ip. destruct Ip as [Q|[Q|[Q|[Q|[Q|[]]]]]]; discriminate Q.
  - destruct (C89_weeks_stand e [] text t us pre kw s s1 n s2 k ws post l He ltac:(intros ? []) H Hn D1 D2 D3 D4 D5 E Sp D6 D7 El) as (r' & c' & I' & St' & En & Da & _ & Di & U). rewrite <- (Same r' I' St').
    apply clock_uncertain; eapply unset_uncertain; try exact U; cbn; tauto.
  - destruct (C89_this_week_stands e [] text t us pre sp0 post l He ltac:(intros ? []) H Hn D1 E Sp D2 El) as (r' & I' & St' & En & Di & U). rewrite <- (Same r' I' St').
    apply clock_uncertain; eapply unset_uncertain; try exact U; cbn; tauto.
  - destruct (C91_this_time_stands e gwords_init text t us pre sp0 w h post He H Hn D1 D2 E Sp) as (rs & r' & X & I' & St' & En & Di & _ & Hh & Hm & U).
    unfold alone in El. rewrite X in El. apply RelativeFacts.ret_inj in El. subst l. rewrite <- (Same r' I' St').
    apply clock_uncertain; [exact (implied_uncertain _ _ _ Hh)|exact (implied_uncertain _ _ _ Hm)|]. eapply unset_uncertain; try exact U; cbn; tauto.
Qed.
(** the date of a casual time, deadline or week phrase is never certain *)
Lemma vague_time_only e text t us p pre w post mo l res sp : sane e -> real_instant t us -> neighbours (mdate t) -> Z.of_nat (List.length text) < 2 ^ 32 ->
  to_lower text = pre ++ w ++ post -> separate pre post -> phrase_says t p pre w post mo -> real_moment mo -> In p vague -> alone e p text (ptime_of t us) = Ret l ->
  In res l -> stands res pre (w ++ sp) -> time_only res.
Proof.
  intros He H N Hn E Sp Ps Rm Ip El I St.
  assert (Same : forall r', In r' l -> stands r' pre w -> r' = res).
  { intros r' I' St'. apply (sole e p text (ptime_of t us) l res r' He); auto; [apply in_all, plain_in, daily_plain, vague_daily; exact Ip|]. destruct St as [Ix _], St' as [Ix' _]. congruence. }
  assert (Dt : forall c, date_implied (r_start res) c -> time_only res) by (intros c (_ & A & B); split; eapply implied_uncertain; eassumption).
  destruct Ps as [pre post|pre post|pre post|pre sp0 post c B D|pre post c D|pre w post c W D|pre w post n v u q c D1 D2 D3 D4|pre w post n v u q secs t' D1 D2 D3 D4 D5 D6 D7 D8
    |pre yy mm dd post c D1 D2 D3 D4 D5|pre yy mm dd k post c D1 D2 D3 D4 D5 D6 D7 D8 D9|pre x r sp0 post c D1 D2 D3 D4|pre kw s s1 n s2 k ws post c D1 D2 D3 D4 D5 D6 D7 D8|pre sp0 post D1 D2|pre sp0 w h post D1 D2];
    try (exfalso; cbn in Ip; destruct Ip as [Q|[Q|[Q|[]]]]; discriminate Q).
  - assert (Iu : In (bs v) (map bs all_units)) by (apply in_map; apply in_or_app; left; apply (in_map fst) in D3; exact D3).
    pose proof (proj1 (proj1 H)) as Rt. pose proof (proj1 Rm) as R. cbn [mdate] in R.
    assert (Hm : forall k, q = Whole k -> k <= INT_MAX).
    { intros k ->. unfold INT_MAX. destruct u; cbn [deadline_target] in D4; try contradiction; try (destruct D4 as [_ T]; lia).
      - destruct (day_fits t k c Rt R D4) as (_ & L & _). lia.
      - destruct (day_fits t (7 * k) c Rt R D4) as (_ & L & _). lia. }
    destruct (C86_deadlines_stand e text t us pre w post n (bs v) q l He H Hn D1 D2 Iu Hm E Sp El) as (r' & I' & St' & En & U & M). rewrite (Same r' I' St') in M. specialize (M v u eq_refl D3).
    destruct (target_reached _ _ _ _ _ D4 M) as (_ & D & V). exact (Dt _ D).
  - assert (Iu : In (bs v) (map bs all_units)) by (apply in_map; apply in_or_app; left; apply (in_map fst) in D3; exact D3).
    assert (Hm : forall k, q = Whole k -> k <= INT_MAX) by (intros k Ek; specialize (D6 k Ek); unfold INT_MAX; lia).
    destruct (C86_deadlines_stand e text t us pre w post n (bs v) q l He H Hn D1 D2 Iu Hm E Sp El) as (r' & I' & St' & En & U & M). rewrite (Same r' I' St') in M. specialize (M v u eq_refl D3).
    pose proof (clock_reached _ _ _ _ _ _ D4 D5 D6 D7 M) as (D & _). exact (Dt _ D).
  - destruct (C89_weeks_stand e [] text t us pre kw s s1 n s2 k ws post l He ltac:(intros ? []) H Hn D1 D2 D3 D4 D5 E Sp D6 D7 El) as (r' & c' & I' & St' & En & Da & _ & Di & U). rewrite (Same r' I' St') in Di. exact (Dt _ Di).
  - destruct (C89_this_week_stands e [] text t us pre sp0 post l He ltac:(intros ? []) H Hn D1 E Sp D2 El) as (r' & I' & St' & En & Di & U). rewrite (Same r' I' St') in Di. exact (Dt _ Di).
  - destruct (C91_this_time_stands e gwords_init text t us pre sp0 w h post He H Hn D1 D2 E Sp) as (rs & r' & X & I' & St' & En & Di & _).
    unfold alone in El. rewrite X in El. apply RelativeFacts.ret_inj in El. subst l. rewrite (Same r' I' St') in Di. exact (Dt _ Di).
Qed.
Lemma daily_head t p pre w post mo : phrase_says t p pre w post mo -> In p daily -> exists c v, w = c :: v /\ is_space c = false.
Proof.
  intros Ps Ip.
  assert (Dg : forall x, is_digit x = true -> is_space x = false) by (intros x; destruct x as [[] [] [] [] [] [] [] []]; try reflexivity; discriminate).
  assert (Yh : forall yy mm dd r, date_loose yy mm dd -> exists c v, ymd_text yy mm dd ++ r = c :: v /\ is_space c = false).
  { intros yy mm dd r (D & L & _). destruct yy as [|c yy]; [discriminate L|]. inversion D; subst. eexists c, _. split; [reflexivity|]. auto. }
  destruct Ps; try (eexists _, _; split; [reflexivity|reflexivity]).
  - match goal with X : _ \/ _ |- _ => destruct X as [-> | ->] end; eexists _, _; split; reflexivity.
  - match goal with X : deadline_phrase _ _ _ |- _ => destruct X as (kw & s1 & s2 & -> & [-> | ->] & _) end; eexists _, _; split; reflexivity.
  - match goal with X : deadline_phrase _ _ _ |- _ => destruct X as (kw & s1 & s2 & -> & [-> | ->] & _) end; eexists _, _; split; reflexivity.
  - rewrite <- (app_nil_r (ymd_text yy mm dd)). eauto.
  - eauto.
  - exfalso. cbn in Ip. destruct Ip as [Q|[Q|[Q|[Q|[Q|[]]]]]]; discriminate Q.
  - match goal with X : way _ _ |- _ => destruct X as [[-> _]|[-> _]] end; eexists _, _; split; reflexivity.
Qed.

(** [w], standing between [pre] and [post], names a day and no time, and [M] holds of the moment that is meant: a casual date other than "now", an ISO date, a casual time ("this evening"), a deadline or a week phrase as in C92,
    or a plainly written month-day date as in C98 *)
Inductive day_named (t : moment) : parser -> bytes -> bytes -> bytes -> (moment -> Prop) -> Prop :=
| dn_phrase p pre w post m : In p daily -> separate pre post -> phrase_says t p pre w post m -> real_moment m -> clockless w -> day_named t p pre w post (fun m' => m' = m)
| dn_month_day pre tx x post : plain_month_day tx x -> md_to x = None -> 1 <= md_day x <= 31 -> next_word post -> (forall a b, pre = a ++ [b] -> is_word b = false) -> no_weekday_before pre (tx ++ post) ->
    day_named t middle_endian pre tx post (fun m' => exists y, year_meant t x y /\ m' = Moment (Cal y (md_month x) (md_day x)) 0 0 0).
Lemma daily_firm p : In p daily -> ~ In p vague -> In p firm.
Proof. cbn. tauto. Qed.
Lemma phrase_rest e text t us p pre w post m l a s : sane e -> Z.of_nat (List.length text) < 2 ^ 32 -> to_lower text = pre ++ w ++ post -> In p daily -> alone e p text (ptime_of t us) = Ret l -> In a l -> stands a pre (w ++ s) ->
  phrase_says t p pre w post m -> exists b, post = s ++ b.
Proof.
  intros He Hn E Ip El Ia Sa _. pose proof (plain_in p (daily_plain _ Ip)) as Jp.
  assert (Lo : firstn (Z.to_nat (textLength a)) (skipn (Z.to_nat (getIndex a)) (to_lower text)) = r_text a).
  { apply (C14_located e p gwords_init text (ptime_of t us) l a He (in_all _ Jp)); auto; intros ->; cbn in Ip; destruct Ip as [X|[X|[X|[X|[X|[]]]]]]; discriminate X. }
  pose proof Sa as [S1 S2]. unfold textLength in Lo. rewrite S1, S2, !Nat2Z.id, E, skipn_app, skipn_all2 in Lo by (clear; lia). rewrite Nat.sub_diag in Lo. cbn [skipn app] in Lo.
  rewrite app_length, firstn_app, firstn_all2 in Lo by (clear; lia). apply app_inv_head in Lo. replace (List.length w + List.length s - List.length w)%nat with (List.length s) in Lo by (clear; lia).
  exists (skipn (List.length s) post). rewrite <- Lo at 1. symmetry. apply firstn_skipn.
Qed.
Lemma named_found e text t us p pre w post D l : sane e -> real_instant t us -> neighbours (mdate t) -> Z.of_nat (List.length text) < 2 ^ 32 ->
  to_lower text = pre ++ w ++ post -> day_named t p pre w post D -> alone e p text (ptime_of t us) = Ret l ->
  exists d, D d /\ (real_moment d -> exists r s b, In r l /\ stands r pre (w ++ s) /\ blanks s /\ post = s ++ b /\ has_end r = false /\ denotes (r_start r) d /\ no_clock (r_start r) /\
    tag_is TTimeExpression r = false /\ (~ In p vague -> is_certain Month (r_start r) = true)).
Proof.
  intros He H N Hn E D0 El. destruct D0 as [p pre w post m Ip Sp Ps Rm Cw|pre tx x post P Nr Hd NW Sa Nw].
  - exists m. split; [reflexivity|]. intros _. pose proof (plain_in p (daily_plain _ Ip)) as Jp.
    destruct (phrase_found e text t us p pre w post m l He H N Hn E Sp Ps Rm El) as (a & s & Ia & Sa & Bs & Ea & Da).
    destruct (phrase_rest e text t us p pre w post m l a s He Hn E Ip El Ia Sa Ps) as [b Eb]. exists a, s, b.
    split; [exact Ia|]. split; [exact Sa|]. split; [exact Bs|]. split; [exact Eb|]. split; [exact Ea|]. split; [exact Da|].
    split; [exact (daily_no_clock e text t us p pre w post m l a s He H N Hn E Sp Ps Rm Ip Cw Bs El Ia Sa)|].
    split; [exact (plain_untimed e p text _ l a He (daily_plain _ Ip) El Ia)|].
    intros Nv. exact (firm_month e text t us p pre w post m l a s He H N Hn E Sp Ps (daily_firm _ Ip Nv) El Ia Sa).
  - destruct (month_day_result e text t us pre tx x post l He H Hn P NW E Sa Nw Hd Nr El) as (y & r & Ym & I & St & En & D & Nc & Mc & U).
    exists (Moment (Cal y (md_month x) (md_day x)) 0 0 0). split; [eauto|]. intros _. exists r, [], post. rewrite app_nil_r. split; [exact I|]. split; [exact St|]. split; [constructor|]. split; [reflexivity|]. split; [exact En|].
    split; [exact D|]. split; [exact Nc|]. split; [exact U|]. intros _. exact Mc.
Qed.
Lemma named_parser t p pre w post D : day_named t p pre w post D -> In p parsers.
Proof. intros [p' pre' w' post' m Ip _ _ _ _|]; [exact (plain_in _ (daily_plain _ Ip))|exact in_parsers_me]. Qed.
Lemma named_head t p pre w post D : day_named t p pre w post D -> exists c v, w = c :: v /\ is_space c = false.
Proof.
  intros [p' pre' w' post' m Ip _ Ps _ _|pre' tx x post' P _ _ _ _ _]; [exact (daily_head _ _ _ _ _ _ Ps Ip)|].
  destruct (plain_head _ _ P) as (h & v & Ih & ->).
  assert (Q : forallb (fun h => match bs h with c :: _ => negb (is_space c) | [] => false end) heads = true) by (vm_compute; reflexivity). rewrite forallb_forall in Q. specialize (Q _ Ih).
  destruct (bs h) as [|c0 u]; [discriminate Q|]. eexists c0, _. split; [reflexivity|]. destruct (is_space c0); [discriminate Q|reflexivity].
Qed.
(** the day of [d] with the clock of [h] *)
Definition at_clock (d h : moment) : moment := Moment (mdate d) (mhour h) (mmin h) (msec h).
(** what a casual time, deadline or week phrase contributes *)
Definition hint (m : moment) (r : result) : Prop := has_end r = false /\ time_only r /\ getHour (r_start r) = mhour m /\ getMinute (r_start r) = mmin m /\ getSeconds (r_start r) = msec m.
(** What a casual time ("this evening"), a deadline or a week phrase [w] between [pre] and [post] is taken for: what it says, as in C92; but for hours, minutes and seconds the clock time that long after the reference stands
    on the reference date (as in C131), and "in half a day" is twelve hours later without the seconds (as in C132). *)
Inductive suggests (t : moment) : parser -> bytes -> bytes -> bytes -> moment -> Prop :=
| su_phrase p pre w post m : In p [casual_time; deadline; week] -> phrase_says t p pre w post m -> suggests t p pre w post m
| su_clock pre w post n v u q secs t' : deadline_phrase w n (bs v) -> spells n q -> In (v, u) full_units -> u <> UDay -> deadline_seconds q u = Some secs -> (forall k, q = Whole k -> k <= 2 ^ 24) ->
    seconds_after secs t t' -> suggests t deadline pre w post (Moment (mdate t) (mhour t') (mmin t') (msec t'))
| su_half_day pre w post n v t' : deadline_phrase w n (bs v) -> spells n Half -> In (v, UDay) full_units -> seconds_after (12 * 3600) t t' -> suggests t deadline pre w post (Moment (mdate t') (mhour t') (mmin t') 0).
Lemma suggests_parser t p pre w post mo : suggests t p pre w post mo -> w <> [] /\ In p [casual_date; casual_time; deadline; iso; holiday; week].
Proof.
  intros [p' pre' w' post' m Ip Ps|pre' w' post' n v u q secs t' (kw & s1 & s2 & -> & K & _) _ _ _ _ _ _|pre' w' post' n v t' (kw & s1 & s2 & -> & K & _) _ _ _]; [exact (says_parser _ _ _ _ _ _ Ps)| |]; (split; [destruct K as [-> | ->]; discriminate|cbn; tauto]).
Qed.
Lemma suggests_head t p pre w post mo : suggests t p pre w post mo -> exists c v, w = c :: v /\ is_space c = false.
Proof.
  intros [p' pre' w' post' m Ip Ps|pre' w' post' n v u q secs t' (kw & s1 & s2 & -> & K & _) _ _ _ _ _ _|pre' w' post' n v t' (kw & s1 & s2 & -> & K & _) _ _ _]; [exact (daily_head _ _ _ _ _ _ Ps (vague_daily _ Ip))| |];
    destruct K as [-> | ->]; eexists _, _; split; reflexivity.
Qed.
Lemma hint_means e text t us p pre w post m l : sane e -> real_instant t us -> neighbours (mdate t) -> Z.of_nat (List.length text) < 2 ^ 32 ->
  to_lower text = pre ++ w ++ post -> separate pre post -> suggests t p pre w post m -> real_moment m -> alone e p text (ptime_of t us) = Ret l ->
  exists r s b, In r l /\ stands r pre (w ++ s) /\ blanks s /\ post = s ++ b /\ tag_is TTimeExpression r = false /\ hint m r /\ denotes (r_start r) m.
Proof.
  intros He H N Hn E Sp Su Rm El. destruct Su as [p pre w post m Ip Ps|pre w post n v u q secs t' D1 D2 D3 D4 D5 D6 D7|pre w post n v t' D1 D2 D3 Sa].
  - change (In p vague) in Ip. destruct (phrase_found e text t us p pre w post m l He H N Hn E Sp Ps Rm El) as (a & s & Ia & Sa & Bs & Ea & Da).
    destruct (phrase_rest e text t us p pre w post m l a s He Hn E (vague_daily _ Ip) El Ia Sa Ps) as [b Eb]. exists a, s, b.
    split; [exact Ia|]. split; [exact Sa|]. split; [exact Bs|]. split; [exact Eb|]. split; [exact (plain_untimed e p text _ l a He (daily_plain _ (vague_daily _ Ip)) El Ia)|].
    split; [|exact Da]. split; [exact Ea|]. split; [exact (vague_time_only e text t us p pre w post m l a s He H N Hn E Sp Ps Rm Ip El Ia Sa)|]. exact (proj2 (proj2 (proj2 Da))).
  - assert (Iu : In (bs v) (map bs all_units)) by (apply in_map; apply in_or_app; left; apply (in_map fst) in D3; exact D3).
    assert (Hm : forall k, q = Whole k -> k <= INT_MAX) by (intros k Ek; specialize (D6 k Ek); unfold INT_MAX; lia).
    destruct (C86_deadlines_stand e text t us pre w post n (bs v) q l He H Hn D1 D2 Iu Hm E Sp El) as (res & I & St & En & U & M). specialize (M v u eq_refl D3).
    destruct (clock_reached _ _ _ _ _ _ D4 D5 D6 D7 M) as (D & C1 & C2 & C3).
    assert (Da : denotes (r_start res) (Moment (mdate t) (mhour t') (mmin t') (msec t'))) by (apply denotes_implied; [exact D|..]; eauto using implied_value).
    exists res, [], post. rewrite app_nil_r. split; [exact I|]. split; [exact St|]. split; [constructor|]. split; [reflexivity|]. split; [exact (plain_untimed e deadline text _ l res He ltac:(cbn; tauto) El I)|].
    split; [|exact Da]. split; [exact En|]. split; [destruct D as (_ & A & B); split; eapply implied_uncertain; eassumption|]. exact (proj2 (proj2 (proj2 Da))).
  - assert (Iu : In (bs v) (map bs all_units)) by (apply in_map; apply in_or_app; left; apply (in_map fst) in D3; exact D3).
    destruct (C86_deadlines_stand e text t us pre w post n (bs v) Half l He H Hn D1 D2 Iu ltac:(discriminate) E Sp El) as (res & I & St & En & U & M). specialize (M v UDay eq_refl D3).
    destruct M as (t2 & R2 & S2 & D & Hh & Hm & U2).
    assert (t2 = t').
    { destruct S2 as (V2 & A1 & A2 & A3 & E2), Sa as (V & B1 & B2 & B3 & E1). unfold sec_count in *.
      clear - V2 A1 A2 A3 E2 V B1 B2 B3 E1. assert (rd (mdate t2) = rd (mdate t')) by lia. assert (mdate t2 = mdate t') by (apply rd_inj; assumption).
      destruct t2 as [d2 h2 m2 s2], t' as [d3 h3 m3 s3]. cbn [Spec.mdate Spec.mhour Spec.mmin Spec.msec] in *. subst d3. f_equal; lia. }
    subst t2. assert (Da : denotes (r_start res) (Moment (mdate t') (mhour t') (mmin t') 0)) by (apply denotes_implied; [exact D|exact (implied_value _ _ _ Hh)|exact (implied_value _ _ _ Hm)|apply (zero_of _ _ _ U2); cbn; tauto]).
    exists res, [], post. rewrite app_nil_r. split; [exact I|]. split; [exact St|]. split; [constructor|]. split; [reflexivity|]. split; [exact (plain_untimed e deadline text _ l res He ltac:(cbn; tauto) El I)|].
    split; [|exact Da]. split; [exact En|]. split; [destruct D as (_ & A & B); split; eapply implied_uncertain; eassumption|]. exact (proj2 (proj2 (proj2 Da))).
Qed.
Lemma hint_found e text t us p pre w post m l : sane e -> real_instant t us -> neighbours (mdate t) -> Z.of_nat (List.length text) < 2 ^ 32 ->
  to_lower text = pre ++ w ++ post -> separate pre post -> suggests t p pre w post m -> real_moment m -> alone e p text (ptime_of t us) = Ret l ->
  exists r s b, In r l /\ stands r pre (w ++ s) /\ blanks s /\ post = s ++ b /\ tag_is TTimeExpression r = false /\ hint m r.
Proof.
  intros He H N Hn E Sp Su Rm El. destruct (hint_means e text t us p pre w post m l He H N Hn E Sp Su Rm El) as (r & s & b & A1 & A2 & A3 & A4 & A5 & A6 & _). exists r, s, b. auto 10.
Qed.
Lemma blank_room s mid b w2 rest : blanks s -> (exists c v, w2 = c :: v /\ is_space c = false) -> mid ++ w2 ++ rest = s ++ b -> (List.length s <= List.length mid)%nat.
Proof.
  intros Bs (c2 & v2 & Ew2 & Sc2). revert mid. induction Bs as [|x s Hx Bs IH]; intros mid Ep; [cbn; lia|]. destruct mid as [|y mid]; cbn [app] in Ep.
  - exfalso. rewrite Ew2 in Ep. cbn [app] in Ep. injection Ep as Ex _. congruence.
  - injection Ep as _ Ep. specialize (IH mid Ep). cbn [List.length]. lia.
Qed.

(** C121.  A text names a day and no time, later has a casual time ("this evening"), a deadline ("in 5 days", "within 2 hours") or a week phrase ("next week"), no connecting word after that, and nothing
    else is recognised.  The program takes the second phrase for a time of day: it prints the first day with the clock of the second phrase. *)
Theorem C121_day_then_hint : forall e sortf text t us p1 p2 pre w1 mid w2 post D m2, sane e -> is_sort sortf -> real_instant t us -> neighbours (mdate t) -> Z.of_nat (List.length text) < 2 ^ 31 ->
  to_lower text = pre ++ w1 ++ mid ++ w2 ++ post -> day_named t p1 pre w1 (mid ++ w2 ++ post) D ->
  separate (pre ++ w1 ++ mid) post -> suggests t p2 (pre ++ w1 ++ mid) w2 post m2 -> real_moment m2 ->
  (forall v, In v connectors -> ~ occurs v post) -> only_two e text (ptime_of t us) p1 p2 pre w1 mid w2 ->
  exists d, D d /\ (real_moment d -> main e sortf gwords_init text (ptime_of t us) = Ret (line (bs (written (at_clock d m2))))).
Proof.
  intros e sortf text t us p1 p2 pre w1 mid w2 post D m2 He Hs H N Hn E D1 Sp2 Ps2 R2 Nc Al.
  assert (Hn2 : Z.of_nat (List.length text) < 2 ^ 32) by (clear - Hn; lia).
  assert (E2 : to_lower text = (pre ++ w1 ++ mid) ++ w2 ++ post) by (rewrite E, <- !app_assoc; reflexivity).
  pose proof (named_parser _ _ _ _ _ _ D1) as J1. pose proof (plain_in p2 (proj2 (suggests_parser _ _ _ _ _ _ Ps2))) as J2.
  destruct (Al p1 J1) as (l1 & El1 & _). destruct (Al p2 J2) as (l2 & El2 & _).
  destruct (named_found e text t us p1 pre w1 _ D l1 He H N Hn2 E D1 El1) as (d & Hd & F1). exists d. split; [exact Hd|]. intros Rd.
  pose proof (named_head _ _ _ _ _ _ D1) as Hw1. pose proof (suggests_head _ _ _ _ _ _ Ps2) as Hw2.
  apply (pair_of e sortf text (ptime_of t us) p1 p2 pre w1 mid w2 post (bs (written (at_clock d m2))) (fun r => has_end r = false /\ denotes (r_start r) d /\ no_clock (r_start r)) (hint m2)); auto.
  - destruct Hw1 as (c & v & -> & _). discriminate.
  - destruct Hw2 as (c & v & -> & _). discriminate.
  - intros l El. unfold alone in El. rewrite El1 in El. apply RelativeFacts.ret_inj in El. subst l. destruct (F1 Rd) as (r & s & b & I & St & Bs & Ep & En & Od & Nk & U & _).
    exists r, (List.length s). split; [exact I|]. split; [|auto]. destruct St as [S1 S2]. split; [exact S1|]. split; [unfold textLength; rewrite S2, app_length; reflexivity|]. exact (blank_room _ _ _ _ _ Bs Hw2 Ep).
  - intros l El. destruct (hint_found e text t us p2 _ w2 post m2 l He H N Hn2 E2 Sp2 Ps2 R2 El) as (r & s & b & I & St & Bs & Ep & U & Hi).
    exists r, (List.length s). split; [exact I|]. split; [|auto]. destruct St as [S1 S2]. split; [exact S1|]. unfold textLength. rewrite S2, app_length. reflexivity.
  - intros a b (Ea & Oa & Na) (Eb & To & Hh & Hm & Hx) Za Zb Ca Cb Ta Tb L S0 La Lb Apart Sb (k & _ & Ek).
    apply (refined_two (to_lower text) a b (mdate d) (mhour m2) (mmin m2) (msec m2)); auto.
    + destruct Oa as (O1 & O2 & O3 & _). split; [exact O1|]. split; [exact O2|exact O3].
    + destruct R2 as (_ & R2). split; [exact (proj1 Rd)|exact R2].
    + intros w Iw. rewrite Ek. intros (x & y & Ex). apply (Nc w Iw). exists (firstn k post ++ x), y. rewrite <- (firstn_skipn k post) at 1. rewrite Ex, <- app_assoc. reflexivity.
Qed.
Print Assumptions C121_day_then_hint.

(** C122.  The same with the casual time, deadline or week phrase first and then a certain day (a casual date other than "now", an ISO date or a month-day date). *)
Theorem C122_hint_then_day : forall e sortf text t us p1 p2 pre w1 mid w2 post D m1, sane e -> is_sort sortf -> real_instant t us -> neighbours (mdate t) -> Z.of_nat (List.length text) < 2 ^ 31 ->
  to_lower text = pre ++ w1 ++ mid ++ w2 ++ post -> separate pre (mid ++ w2 ++ post) -> suggests t p1 pre w1 (mid ++ w2 ++ post) m1 -> real_moment m1 ->
  day_named t p2 (pre ++ w1 ++ mid) w2 post D -> ~ In p2 [casual_time; deadline; week] ->
  (forall v, In v connectors -> ~ occurs v post) -> only_two e text (ptime_of t us) p1 p2 pre w1 mid w2 ->
  exists d, D d /\ (real_moment d -> main e sortf gwords_init text (ptime_of t us) = Ret (line (bs (written (at_clock d m1))))).
Proof.
  intros e sortf text t us p1 p2 pre w1 mid w2 post D m1 He Hs H N Hn E Sp1 Ps1 R1 D2 Nv Nc Al. change (~ In p2 vague) in Nv.
  assert (Hn2 : Z.of_nat (List.length text) < 2 ^ 32) by (clear - Hn; lia).
  assert (E2 : to_lower text = (pre ++ w1 ++ mid) ++ w2 ++ post) by (rewrite E, <- !app_assoc; reflexivity).
  pose proof (named_parser _ _ _ _ _ _ D2) as J2. pose proof (plain_in p1 (proj2 (suggests_parser _ _ _ _ _ _ Ps1))) as J1.
  destruct (Al p1 J1) as (l1 & El1 & _). destruct (Al p2 J2) as (l2 & El2 & _).
  destruct (named_found e text t us p2 _ w2 post D l2 He H N Hn2 E2 D2 El2) as (d & Hd & F2). exists d. split; [exact Hd|]. intros Rd.
  pose proof (named_head _ _ _ _ _ _ D2) as Hw2. pose proof (suggests_head _ _ _ _ _ _ Ps1) as Hw1.
  apply (pair_of e sortf text (ptime_of t us) p1 p2 pre w1 mid w2 post (bs (written (at_clock d m1))) (hint m1) (fun r => has_end r = false /\ denotes (r_start r) d /\ no_clock (r_start r) /\ is_certain Month (r_start r) = true)); auto.
  - destruct Hw1 as (c & v & -> & _). discriminate.
  - destruct Hw2 as (c & v & -> & _). discriminate.
  - intros l El. destruct (hint_found e text t us p1 pre w1 _ m1 l He H N Hn2 E Sp1 Ps1 R1 El) as (r & s & b & I & St & Bs & Ep & U & Hi).
    exists r, (List.length s). split; [exact I|]. split; [|auto]. destruct St as [S1 S2]. split; [exact S1|]. split; [unfold textLength; rewrite S2, app_length; reflexivity|]. exact (blank_room _ _ _ _ _ Bs Hw2 Ep).
  - intros l El. unfold alone in El. rewrite El2 in El. apply RelativeFacts.ret_inj in El. subst l. destruct (F2 Rd) as (r & s & b & I & St & Bs & Ep & En & Od & Nk & U & Mc). specialize (Mc Nv).
    exists r, (List.length s). split; [exact I|]. split; [|auto]. destruct St as [S1 S2]. split; [exact S1|]. unfold textLength. rewrite S2, app_length. reflexivity.
  - intros a b (Ea & To & Hh & Hm & Hx) (Eb & Ob & Nb & Mb) Za Zb Ca Cb Ta Tb L S0 La Lb Apart Sb (k & _ & Ek).
    apply (refined_vague_first (to_lower text) b a (mdate d) (mhour m1) (mmin m1) (msec m1)); auto.
    + destruct Ob as (O1 & O2 & O3 & _). split; [exact O1|]. split; [exact O2|exact O3].
    + destruct R1 as (_ & R1). split; [exact (proj1 Rd)|exact R1].
    + intros w Iw. rewrite Ek. intros (x & y & Ex). apply (Nc w Iw). exists (firstn k post ++ x), y. rewrite <- (firstn_skipn k post) at 1. rewrite Ex, <- app_assoc. reflexivity.
Qed.
Print Assumptions C122_hint_then_day.

(** ** Cases *)
Lemma same_week q : In q parsers -> beq (p_pattern q) (p_pattern week) = true -> q = week.
Proof. intros I E. cbn in I. repeat (destruct I as [<-|I]; [first [reflexivity|vm_compute in E; discriminate E]|]). contradiction. Qed.
Lemma same_dl q : In q parsers -> beq (p_pattern q) (p_pattern deadline) = true -> q = deadline.
Proof. intros I E. cbn in I. repeat (destruct I as [<-|I]; [first [reflexivity|vm_compute in E; discriminate E]|]). contradiction. Qed.
(** a connecting word between the two does not make a range of them *)
Example C121_case : let t := Moment (Cal 2024 2 27) 9 15 0 in let text := bs "We are away from tomorrow to next week, ok" in
  real_instant t 3 /\ neighbours (mdate t) /\ to_lower text = bs "we are away from " ++ bs "tomorrow" ++ bs " to " ++ bs "next week" ++ bs ", ok" /\
  day_named t casual_date (bs "we are away from ") (bs "tomorrow") (bs " to " ++ bs "next week" ++ bs ", ok") (fun m => m = Moment (Cal 2024 2 28) 0 0 0) /\
  separate (bs "we are away from " ++ bs "tomorrow" ++ bs " to ") (bs ", ok") /\
  suggests t week (bs "we are away from " ++ bs "tomorrow" ++ bs " to ") (bs "next week") (bs ", ok") (Moment (Cal 2024 3 5) 0 0 0) /\
  (forall v, In v connectors -> ~ occurs v (bs ", ok")) /\ only_two strict_env text (ptime_of t 3) casual_date week (bs "we are away from ") (bs "tomorrow") (bs " to ") (bs "next week") /\
  main strict_env sort_stable gwords_init text (ptime_of t 3) = Ret (line (bs "2024-Feb-28 00:00:00")).
Proof.
  cbv zeta. split; [inst|]. split; [exists (Cal 2024 2 26), (Cal 2024 2 28); inst|]. split; [reflexivity|].
  split; [apply (dn_phrase _ casual_date (bs "we are away from ") (bs "tomorrow") _ (Moment (Cal 2024 2 28) 0 0 0)); [cbn; tauto|apply separate_dec; reflexivity|apply ps_tomorrow; [auto|concrete]|inst|split; [discriminate|cbn; intuition discriminate]]|].
  split; [apply separate_dec; reflexivity|]. split.
  { apply su_phrase; [cbn; tauto|]. apply (ps_week _ _ (bs "next") 1 (bs " ") [] [] 1 (bs "week")); [right; auto|repeat constructor|discriminate|constructor|left; reflexivity|apply not_after_dec; reflexivity| |concrete].
    intros _ sp b E Bs. destruct sp as [|x sp]; [discriminate E|]. cbn in E. injection E as E _. subst x. inversion Bs; discriminate. }
  split. { intros v Iv. cbn in Iv. destruct Iv as [<-|[<-|[<-|[<-|[]]]]]; apply Alphabet.containsb_ok; vm_compute; reflexivity. }
  split; [apply two_only_ok; [exact same_cd|exact same_week|vm_compute; reflexivity]|vm_compute; reflexivity].
Qed.
Example C122_case : let t := Moment (Cal 2024 2 27) 9 15 0 in let text := bs "Ring in 5 hours, or tomorrow?" in
  real_instant t 3 /\ neighbours (mdate t) /\ to_lower text = bs "ring " ++ bs "in 5 hours" ++ bs ", or " ++ bs "tomorrow" ++ bs "?" /\
  separate (bs "ring ") (bs ", or " ++ bs "tomorrow" ++ bs "?") /\
  suggests t deadline (bs "ring ") (bs "in 5 hours") (bs ", or " ++ bs "tomorrow" ++ bs "?") (Moment (Cal 2024 2 27) 14 15 0) /\ real_moment (Moment (Cal 2024 2 27) 14 15 0) /\
  day_named t casual_date (bs "ring " ++ bs "in 5 hours" ++ bs ", or ") (bs "tomorrow") (bs "?") (fun m => m = Moment (Cal 2024 2 28) 0 0 0) /\
  (forall v, In v connectors -> ~ occurs v (bs "?")) /\ only_two strict_env text (ptime_of t 3) deadline casual_date (bs "ring ") (bs "in 5 hours") (bs ", or ") (bs "tomorrow") /\
  main strict_env sort_stable gwords_init text (ptime_of t 3) = Ret (line (bs "2024-Feb-28 14:15:00")).
Proof.
  cbv zeta. split; [inst|]. split; [exists (Cal 2024 2 26), (Cal 2024 2 28); inst|]. split; [reflexivity|]. split; [apply separate_dec; reflexivity|]. split.
  { apply su_phrase; [cbn; tauto|]. apply (ps_deadline_clock _ _ _ _ (bs "5") "hours" UHour (Whole 5) 18000); [|apply (sp_digits (bs "5")); [repeat constructor|discriminate]|cbn; tauto|discriminate|reflexivity|intros k [= <-]; lia|concrete|reflexivity].
    exists (bs "in"), (bs " "), (bs " "). split; [reflexivity|]. split; [auto|]. repeat split; try discriminate; repeat constructor. }
  split; [inst|].
  split; [apply (dn_phrase _ casual_date (bs "ring " ++ bs "in 5 hours" ++ bs ", or ") (bs "tomorrow") _ (Moment (Cal 2024 2 28) 0 0 0)); [cbn; tauto|apply separate_dec; reflexivity|apply ps_tomorrow; [auto|concrete]|inst|split; [discriminate|cbn; intuition discriminate]]|].
  split. { intros v Iv. cbn in Iv. destruct Iv as [<-|[<-|[<-|[<-|[]]]]]; apply Alphabet.containsb_ok; vm_compute; reflexivity. }
  split; [apply two_only_ok; [exact same_dl|exact same_cd|vm_compute; reflexivity]|vm_compute; reflexivity].
Qed.
Lemma same_ct q : In q parsers -> beq (p_pattern q) (p_pattern casual_time) = true -> q = casual_time.
Proof. intros I E. cbn in I. repeat (destruct I as [<-|I]; [first [reflexivity|vm_compute in E; discriminate E]|]). contradiction. Qed.
Example C121_evening_case : let t := Moment (Cal 2024 2 27) 9 15 0 in let text := bs "See you tomorrow, this evening!" in
  real_instant t 3 /\ neighbours (mdate t) /\ to_lower text = bs "see you " ++ bs "tomorrow" ++ bs ", " ++ bs "this evening" ++ bs "!" /\
  day_named t casual_date (bs "see you ") (bs "tomorrow") (bs ", " ++ bs "this evening" ++ bs "!") (fun m => m = Moment (Cal 2024 2 28) 0 0 0) /\
  separate (bs "see you " ++ bs "tomorrow" ++ bs ", ") (bs "!") /\
  suggests t casual_time (bs "see you " ++ bs "tomorrow" ++ bs ", ") (bs "this evening") (bs "!") (Moment (Cal 2024 2 27) 20 15 0) /\
  (forall v, In v connectors -> ~ occurs v (bs "!")) /\ only_two strict_env text (ptime_of t 3) casual_date casual_time (bs "see you ") (bs "tomorrow") (bs ", ") (bs "this evening") /\
  main strict_env sort_stable gwords_init text (ptime_of t 3) = Ret (line (bs "2024-Feb-28 20:15:00")).
Proof.
  cbv zeta. split; [inst|]. split; [exists (Cal 2024 2 26), (Cal 2024 2 28); inst|]. split; [reflexivity|].
  split; [apply (dn_phrase _ casual_date (bs "see you ") (bs "tomorrow") _ (Moment (Cal 2024 2 28) 0 0 0)); [cbn; tauto|apply separate_dec; reflexivity|apply ps_tomorrow; [auto|concrete]|inst|split; [discriminate|cbn; intuition discriminate]]|].
  split; [apply separate_dec; reflexivity|]. split.
  { apply su_phrase; [cbn; tauto|]. apply (ps_this_time (Moment (Cal 2024 2 27) 9 15 0) _ (bs " ") "evening" 20); [cbn; tauto|repeat constructor]. }
  split. { intros v Iv. cbn in Iv. destruct Iv as [<-|[<-|[<-|[<-|[]]]]]; apply Alphabet.containsb_ok; vm_compute; reflexivity. }
  split; [apply two_only_ok; [exact same_cd|exact same_ct|vm_compute; reflexivity]|vm_compute; reflexivity].
Qed.
