(** * A clock time followed by a date is answered with both (C104, C105) *)
From Verif Require Import Base Regex RegexParse Calendar Components Utils Execute Spec View ParserSpec PhraseSpec ClockSpec ClockTextSpec MiddleSpec CalendarCycle CalendarFacts RegexFacts ResultFacts
  ExecuteFacts ParserRe MatchFacts LocateFacts HistoryFacts ParserFacts CasualFacts DeadlineFacts ZoneFacts MergeFacts ClockFacts FoundFacts OverlapFacts P_CasualDate P_Deadline P_MiddleEndian P_TimeExpression MiddleFacts Prop_Casual Prop_Deadline Prop_Middle Prop_Found Refiners Main Prop_Execute Prop_Refine Prop_Tags
  MainFacts Prop_Main Prop_Answers Prop_Format Prop_Sentence Prop_ClockText Prop_ClockAnswer Prop_DateTime Prop_Range Prop_MonthText Prop_MonthTime.
From Coq Require Import ZifyBool ZifyNat ZifyN.
Open Scope string_scope.
Open Scope list_scope.
Open Scope Z_scope.

(** ** What the merging refiners make of a time and a date *)
Lemma mdt_time_first text d t : date_only d -> time_only t -> is_certain Hour (r_start t) = true -> stops t <= Z.of_nat (List.length text) -> starts t <= starts d -> isEmpty d = false ->
  has_end d = false -> has_end t = false -> no_clock (r_start d) -> exists m, mdt_refine [t; d] text = Ret [m; res_copy d] /\ joined text (res_copy d) (res_copy t) m.
Proof.
  intros Dd Tt Hh S Od Ne Hd Ht Nc. unfold mdt_refine. cbn [map mdt_loop]. unfold mdt_pair. rewrite !mdt_able_val.
  change (stops (res_copy t)) with (stops t). replace (stops t <=? Z.of_nat (List.length text)) with true by lia.
  assert (E0 : isDateOnly (res_copy t) = false) by (unfold isDateOnly; rewrite hour_cert; cbn [res_copy r_start]; rewrite Hh; reflexivity).
  assert (E1 : isDateOnly (res_copy d) = true) by (apply isDateOnly_spec; exact Dd).
  assert (E2 : isTimeOnly (res_copy t) = true) by (apply isTimeOnly_spec; exact Tt). rewrite E0, E1, E2. cbn [andb bind].
  assert (Mg : exists m, mdt_merge text (res_copy d) (res_copy t) = Ret m).
  { unfold mdt_merge, mdt_end. change (has_end (res_copy (res_copy d))) with (has_end d). change (has_end (res_copy (res_copy t))) with (has_end t).
    rewrite Hd, Ht. cbn [orb bind]. unfold substrZ. change (getIndex (res_copy (res_copy d))) with (starts d). change (getIndex (res_copy (res_copy t))) with (starts t).
    pose proof (textLength_nonneg t). unfold stops, starts in *.
    destruct (Z.of_nat (List.length text) <? Z.min (getIndex d) (getIndex t)) eqn:E; [lia|]. cbn [bind]. eauto. }
  destruct Mg as (m & Em). rewrite Em. cbn [bind]. rewrite isEmpty_copy, Ne. exists m. split; [reflexivity|].
  apply merged_joined; [exact Em|exact Nc|]. cbn [res_copy has_end r_hasend]. unfold has_end in Hd. rewrite Hd. discriminate.
Qed.
Lemma refined_time_first text d t c h mi s : no_zone text d -> no_zone text t -> res_copy d = d -> res_copy t = t -> no_clock (r_start d) -> time_only t -> is_certain Hour (r_start t) = true -> has_end d = false -> has_end t = false ->
  on_date (r_start d) c -> getHour (r_start t) = h -> getMinute (r_start t) = mi -> getSeconds (r_start t) = s -> real_moment (Moment c h mi s) ->
  tag_is TExtractTZ d = false -> tag_is TExtractTZ t = false -> Z.of_nat (List.length text) < 2 ^ 31 ->
  0 <= starts t -> 0 < textLength d -> 0 < textLength t -> stops t <= starts d -> stops d <= Z.of_nat (List.length text) ->
  (forall w, In w connectors -> ~ occurs w (skipn (Z.to_nat (stops d)) text)) ->
  exists m rest, (rs <- tz_refine [t; d] text ;; rs <- mdt_refine rs text ;; mdr_refine rs text) = Ret (m :: rest) /\ toDate m = Ret (bs (written (Moment c h mi s))).
Proof.
  intros Zd Zt Cd Ct Nc To Th Ed Et Od Hh Hm Hs Rm Td Tt L D0 Ld Lt Dt Ln Nw. rewrite tz_refine_total. cbn [bind map]. rewrite Cd, Ct.
  pose proof (proj1 (tz_one_spec text d) Zd) as S1. pose proof (proj1 (tz_one_spec text t) Zt) as S2. cbv zeta in S1, S2.
  set (d' := res_copy (tz_one tz_re text d)) in *. set (t' := res_copy (tz_one tz_re text t)) in *.
  destruct (same_stops _ _ S1) as (P1 & P2 & P3). destruct (same_stops _ _ S2) as (Q1 & Q2 & Q3).
  assert (To' : time_only t') by (unfold time_only; destruct S2 as (_ & _ & _ & E & _); rewrite E; exact To).
  assert (Th' : is_certain Hour (r_start t') = true) by (destruct S2 as (_ & _ & _ & E & _); rewrite E; exact Th).
  assert (Nc' : no_clock (r_start d')) by (eapply same_clock; eassumption).
  assert (Hd' : has_end d' = false) by (destruct S1 as (_ & _ & _ & _ & E & _); rewrite E; exact Ed).
  assert (Ht' : has_end t' = false) by (destruct S2 as (_ & _ & _ & _ & E & _); rewrite E; exact Et).
  destruct (mdt_time_first text d' t') as (m & Em & J); auto; [apply Nc'; cbn; tauto|unfold stops, OverlapFacts.starts in *; lia|unfold stops, OverlapFacts.starts in *; lia|apply filled_nonempty; intros E; unfold textLength in P3, Ld; rewrite E in P3; cbn in P3; lia|].
  rewrite Em. cbn [bind].
  destruct (C50_merge_moment text (res_copy d') (res_copy t') c h mi s m J) as [Dm Pr].
  { cbn [res_copy r_start]. destruct S1 as (_ & _ & _ & E & _). rewrite E. exact Od. }
  { cbn [res_copy r_start]. destruct S2 as (_ & _ & _ & E & _). rewrite E. exact Hh. }
  { cbn [res_copy r_start]. destruct S2 as (_ & _ & _ & E & _). rewrite E. exact Hm. }
  { cbn [res_copy r_start]. destruct S2 as (_ & _ & _ & E & _). rewrite E. exact Hs. }
  destruct J as (_ & _ & Jx & Jt & Je & _ & Jg).
  assert (U : u32 (Z.min (starts (res_copy d')) (starts (res_copy t'))) = starts t').
  { change (starts (res_copy d')) with (starts d'). change (starts (res_copy t')) with (starts t'). rewrite P2, Q2. clear - D0 Ld Lt Dt Ln L. unfold stops, starts in *. rewrite Z.min_r by lia. unfold u32. apply Z.mod_small. lia. }
  rewrite U in Jx.
  assert (Tl : textLength m = stops d - starts t).
  { unfold textLength. rewrite Jt, firstn_length, skipn_length. change (starts (res_copy d')) with (starts d'). change (starts (res_copy t')) with (starts t'). change (stops (res_copy d')) with (stops d'). change (stops (res_copy t')) with (stops t').
    rewrite P1, P2, Q1, Q2. clear - D0 Ld Lt Dt Ln L. unfold stops, starts in *. lia. }
  assert (Sm : solid text m). { unfold solid. unfold stops in *. unfold starts in *. rewrite Jx, Tl, Q2. clear - D0 Ld Lt Dt Ln L. lia. }
  assert (St : solid text (res_copy d')). { unfold solid. change (starts (res_copy d')) with (starts d'). change (stops (res_copy d')) with (stops d'). change (textLength (res_copy d')) with (textLength d'). rewrite P1, P2, P3. clear - D0 Ld Lt Dt Ln L. unfold stops, starts in *. lia. }
  exists (res_copy m), [res_copy m]. split.
  - apply mdr_unlinked; auto. intros (_ & _ & w & Iw & O). apply (Nw w Iw). unfold between in O. change (starts (res_copy d')) with (starts d') in O.
    assert (Sm' : stops m = stops d) by (unfold stops at 1; rewrite Tl; unfold starts in *; rewrite Jx, Q2; clear; lia). rewrite Sm', P2 in O. replace (stops d <=? starts d) with false in O by (clear - Ld; unfold stops, starts in *; lia).
    rewrite firstn_all2 in O by (clear; rewrite skipn_length; lia). exact O.
  - rewrite (toDate_same _ _ (same_copy m)). apply Pr; auto. rewrite Jg. cbn [r_tags res_copy]. destruct S1 as (_ & _ & _ & _ & _ & _ & G1). specialize (G1 TExtractTZ). rewrite Td, tag_is_tags in G1.
    destruct (r_tags d' TExtractTZ) as [b|]; [exact G1|]. destruct S2 as (_ & _ & _ & _ & _ & _ & G2). rewrite tag_is_tags. cbn [r_tags res_copy]. rewrite <- tag_is_tags, G2, Tt. reflexivity.
Qed.

(** nothing else is recognised: one clock time that starts before the end of [c]; everything else lies inside [c] or [w] and is shorter *)
Definition only_time_day (e : env) (text : bytes) (ref : ptime) (p : parser) (pre c mid w : bytes) : Prop :=
  let first := Z.of_nat (List.length pre) in let past := first + Z.of_nat (List.length c) in let second := past + Z.of_nat (List.length mid) in let last := second + Z.of_nat (List.length w) in
  (exists l r, x_res (execute e time_expression gwords_init text ref) = Ret l /\ filter (fun r => getIndex r <? past) l = [r] /\
     forall r, In r l -> past <= getIndex r -> second <= getIndex r < last /\ textLength r < Z.of_nat (List.length w)) /\
  forall q, In q other_parsers -> exists l, x_res (execute e q gwords_init text ref) = Ret l /\ forall r, In r l ->
     (second <= getIndex r < last /\ (q = p \/ textLength r < Z.of_nat (List.length w))) \/
     (first <= getIndex r < past - 1 /\ textLength r < Z.of_nat (List.length c)).

Lemma time_day_main e sortf text t us p pre c k q mid w post d h mi : sane e -> is_sort sortf -> real_instant t us -> Z.of_nat (List.length text) < 2 ^ 31 ->
  to_lower text = pre ++ c ++ mid ++ w ++ post -> In p other_parsers -> In p parsers -> w <> [] -> mid <> [] -> day_result e text (ptime_of t us) p (pre ++ c ++ mid) w d -> real_date d ->
  clock_words c k q -> clear_before pre -> clear_after q (mid ++ w ++ post) -> clock_time k h mi -> seconds_fine k -> on_clock (ck_mark k) h < 24 ->
  ~ zone_follows (mid ++ w ++ post) -> (forall v, In v connectors -> ~ occurs v post) -> only_time_day e text (ptime_of t us) p pre c mid w ->
  main e sortf gwords_init text (ptime_of t us) = Ret (line (bs (written (day_moment d k h mi)))).
Proof.
  intros He Hs H Hn E Jp Ip' Nw Nm Ds Rd Cw Cb Ca Ct Sf H24 Nz Nc [(lt & rt & Et & Ef & Bt) Al].
  assert (Hn2 : Z.of_nat (List.length text) < 2 ^ 32) by (clear - Hn; lia).
  destruct (words_start _ _ _ Cw) as (c0 & c' & Ec & Hc0).
  assert (Lm : (1 <= List.length mid)%nat) by (destruct mid; [congruence|cbn [List.length]; clear; lia]).
  assert (Lc : (1 <= List.length c)%nat) by (rewrite Ec; cbn [List.length]; clear; lia).
  destruct (clock_stands e gwords_init text t us lt pre c k q (mid ++ w ++ post) h mi He H Hn2 E Cw Cb Ca Ct Sf Et)
    as (res & y & lead & intro & gap & rest & It & Ey & Hl & Op & Ep & Hg & Ix & Tx & En & At & T1 & T2).
  assert (Hgap : gap = [] \/ gap = bs " ") by (rewrite Hg; destruct (mid ++ w ++ post) as [|b0 post0]; [auto|]; cbn; destruct (Ascii.eqb b0 " "); auto).
  assert (Lg : Z.of_nat (List.length gap) <= 1) by (destruct Hgap as [-> | ->]; cbn [List.length]; clear; vm_compute; discriminate).
  assert (Ly : Z.of_nat (List.length pre) = getIndex res + Z.of_nat (List.length lead) + Z.of_nat (List.length intro)).
  { rewrite Ix. apply (f_equal (@List.length ascii)) in Ey. rewrite !app_length in Ey. clear - Ey. lia. }
  assert (Ll : Z.of_nat (List.length lead) <= 1) by (destruct Hl as [->|(x & -> & _)]; cbn [List.length]; clear; lia).
  assert (Lt : textLength res = Z.of_nat (List.length intro) + Z.of_nat (List.length c) + Z.of_nat (List.length gap)) by (unfold textLength; rewrite Tx, !app_length; clear; lia).
  set (first := Z.of_nat (List.length pre)) in *. set (past := first + Z.of_nat (List.length c)) in *. set (second := past + Z.of_nat (List.length mid)) in *. set (last := second + Z.of_nat (List.length w)) in *.
  assert (Early : getIndex res < past) by (clear - Ly Lc; lia).
  assert (Er : rt = res). { assert (I : In res (filter (fun r => getIndex r <? past) lt)) by (apply filter_In; split; [exact It|clear - Early; lia]). rewrite Ef in I. destruct I as [I|[]]; exact I. }
  subst rt.
  destruct (Al p Jp) as (lp & Elp & Blp).
  destruct (Ds lp Elp) as (dr & Id & (Dx & Ld) & De & Do & Dn & Dut).
  assert (Dx' : getIndex dr = second) by (rewrite Dx, !app_length; unfold second, past, first; clear; lia).
  assert (Lw : 0 < Z.of_nat (List.length w)) by (destruct w; [congruence|cbn [List.length]; clear; lia]).
  assert (A : exists rs, all_alone e parsers text (ptime_of t us) = Ret rs).
  { assert (Q : exists rss, Forall2 (fun p l => alone e p text (ptime_of t us) = Ret l) parsers rss).
    { assert (Al' : forall p, In p parsers -> exists l, alone e p text (ptime_of t us) = Ret l).
      { intros q0 Iq. apply others in Iq as [<-|Iq]; [eexists; exact Et|]. destruct (Al q0 Iq) as (l & El & _). eexists; exact El. }
      revert Al'. clear. generalize parsers as ps. induction ps as [|p ps IH]; intros Al; [exists []; constructor|]. destruct (Al p (or_introl eq_refl)) as (l & El).
      destruct IH as [rss F]; [intros q' I'; apply Al; right; exact I'|]. exists (l :: rss). constructor; assumption. }
    destruct Q as [rss F]. exists (List.concat rss). apply all_alone_ret. eauto. }
  destruct A as [rs A]. assert (It' : In time_expression parsers) by (cbn; tauto).
  assert (Ir : In res rs) by (apply (all_alone_in _ _ _ _ _ A); exists time_expression, lt; split; [exact It'|split; [exact Et|exact It]]).
  assert (Idr : In dr rs) by (apply (all_alone_in _ _ _ _ _ A); exists p, lp; split; [exact Ip'|split; [exact Elp|exact Id]]).
  assert (Apart : getIndex res + textLength res <= getIndex dr) by (rewrite Dx', Lt; clear - Ly Lm Ll Lg; lia).
  rewrite (main_two e sortf text (ptime_of t us) rs res dr He Hs A Ir Idr Apart).
  - assert (Cp : forall x, In x rs -> res_copy x = x).
    { intros x Ixx. apply (all_alone_in _ _ _ _ _ A) in Ixx as (p0 & l & Ip0 & Xp & Il). pose proof (execute_copies _ _ _ _ _ _ Xp) as E0.
      clear - E0 Il. induction l as [|y l IH]; [contradiction|]. cbn [map] in E0. injection E0 as E1 E2. destruct Il as [<-|Il]; auto. }
    assert (Lo : List.length (to_lower text) = List.length text) by (unfold to_lower; apply map_length).
    assert (Sl : stops dr = last) by (unfold stops; rewrite Dx', Ld; reflexivity).
    assert (Ln : Z.of_nat (List.length (to_lower text)) = last + Z.of_nat (List.length post)) by (rewrite E, !app_length; unfold last, second, past, first; clear; lia).
    pose proof (at_time_denotes _ _ _ _ _ Sf At) as (_ & _ & _ & G1 & G2 & G3). unfold clock_moment in G1, G2, G3. cbn [mhour mmin msec] in G1, G2, G3.
    destruct (refined_time_first (to_lower text) dr res d (on_clock (ck_mark k) h) mi (match ck_sec k with [] => 0 | ss => decimal ss end)) as (m & ms & M1 & M2); auto.
    + apply untimed_no_zone. exact Dut.
    + apply (clock_no_zone (to_lower text) y lead intro c k q gap (mid ++ w ++ post) rest); auto; [rewrite E, Ey; reflexivity|apply Ca].
    + destruct At as (_ & _ & _ & (_ & U1 & U2) & _). split; [apply U1|apply U2].
    + destruct At as (A1 & _). apply A1.
    + pose proof (clock_real t us c k q h mi H Cw Ct Sf H24) as R. unfold real_moment in *. unfold clock_moment in R. cbn [mdate mhour mmin msec] in R |- *. split; [exact Rd|apply R].
    + apply (C73_no_refiner_tag e p gwords_init text (ptime_of t us) lp dr TExtractTZ He (in_all _ Ip') Elp Id). left. reflexivity.
    + apply (C73_no_refiner_tag e time_expression gwords_init text (ptime_of t us) lt res TExtractTZ He (in_all _ It') Et It). left. reflexivity.
    + rewrite Lo. exact Hn.
    + unfold OverlapFacts.starts. rewrite Ix. clear. lia.
    + rewrite Ld. exact Lw.
    + rewrite Lt. clear - Lc. lia.
    + rewrite Sl, Ln. clear. lia.
    + intros v Iv Ov. rewrite Sl in Ov. apply (Nc v Iv).
      assert (Eq : skipn (Z.to_nat last) (to_lower text) = post); [|rewrite Eq in Ov; exact Ov].
      rewrite E. rewrite !app_assoc. rewrite skipn_app, skipn_all2; [|rewrite !app_length; unfold last, second, past, first; clear; lia].
      replace (Z.to_nat last - List.length (((pre ++ c) ++ mid) ++ w))%nat with 0%nat by (rewrite !app_length; unfold last, second, past, first; clear; lia). reflexivity.
    + rewrite M1. cbn [bind show]. rewrite M2. reflexivity.
  - intros r Irr. apply (all_alone_in _ _ _ _ _ A) in Irr as (p0 & l0 & Ip0 & X0 & Il0). apply others in Ip0 as [<-|Ip0].
    + unfold alone in X0. rewrite Et in X0. apply RelativeFacts.ret_inj in X0. subst l0. destruct (Z_lt_ge_dec (getIndex r) past) as [L|G].
      * left. assert (I : In r (filter (fun r => getIndex r <? past) lt)) by (apply filter_In; split; [exact Il0|clear - L; lia]). rewrite Ef in I. destruct I as [I|[]]; auto.
      * destruct (Bt r Il0 ltac:(clear - G; lia)) as (B1 & B2). right. right. right. rewrite Dx', Ld. fold last. clear - B1 B2. lia.
    + destruct (Al p0 Ip0) as (l1 & El1 & B1). unfold alone in X0. rewrite El1 in X0. apply RelativeFacts.ret_inj in X0. subst l1. destruct (B1 r Il0) as [(B2 & [->|B3])|(B2 & B3)].
      * right. left. rewrite Elp in El1. apply RelativeFacts.ret_inj in El1. subst l0.
        pose proof (result_text _ _ _ _ _ _ _ He (in_all p Ip') Elp Il0) as T0.
        apply (in_order_unique (Z.of_nat (List.length text)) lp); auto.
        { apply (C13_results_in_order _ _ _ _ _ _ He (in_all p Ip') Hn2 Elp). }
        { rewrite Ld. exact Lw. }
        { unfold textLength. destruct (r_text r); [congruence|cbn [List.length]; clear; lia]. }
        { rewrite Dx', Ld. fold last. exact B2. }
      * right. right. right. rewrite Dx', Ld. fold last. clear - B2 B3. lia.
      * right. right. left. rewrite Lt. clear - B2 B3 Ly Ll Lc. lia.
Qed.

(** C104.  A text contains a clock time [c] standing clear as in C93, later a phrase [w] naming the day [d], no zone abbreviation after the time, no connecting word
    ("and", "to", "through", "-") after the day, and nothing else is recognised.  Then the program prints that day at that time. *)
Theorem C104_time_and_day : forall e sortf text t us p pre c k q mid w post d h mi, sane e -> is_sort sortf -> real_instant t us -> neighbours (mdate t) -> Z.of_nat (List.length text) < 2 ^ 31 ->
  to_lower text = pre ++ c ++ mid ++ w ++ post -> separate (pre ++ c ++ mid) post -> day_says t p (pre ++ c ++ mid) w post d -> real_date d ->
  (p = casual_date -> forall x b, post = x :: b -> is_space x = false) -> mid <> [] ->
  clock_words c k q -> clear_before pre -> clear_after q (mid ++ w ++ post) -> clock_time k h mi -> seconds_fine k -> on_clock (ck_mark k) h < 24 ->
  ~ zone_follows (mid ++ w ++ post) -> (forall v, In v connectors -> ~ occurs v post) -> only_time_day e text (ptime_of t us) p pre c mid w ->
  main e sortf gwords_init text (ptime_of t us) = Ret (line (bs (written (day_moment d k h mi)))).
Proof.
  intros e sortf text t us p pre c k q mid w post d h mi He Hs H N Hn E Sp Ds Rd Nb Nm Cw Cb Ca Ct Sf H24 Nz Nc Al.
  destruct (day_parser _ _ _ _ _ _ Ds) as (Nw & Ip & _).
  apply (time_day_main e sortf text t us p pre c k q mid w post d h mi); auto; [exact (day_in p Ip)|exact (plain_in p Ip)|].
  intros lp Elp. assert (Hn2 : Z.of_nat (List.length text) < 2 ^ 32) by (clear - Hn; lia).
  assert (E2 : to_lower text = (pre ++ c ++ mid) ++ w ++ post) by (rewrite E, <- !app_assoc; reflexivity).
  destruct (day_found e text t us p (pre ++ c ++ mid) w post d lp He H N Hn2 E2 Sp Ds Rd Nb Elp) as (dr & Id & Sd & De & Do & Dn).
  exists dr. split; [exact Id|]. split; [exact (stands_place _ _ _ Sd)|]. repeat (split; [assumption|]). exact (plain_untimed e p text _ lp dr He Ip Elp Id).
Qed.
Print Assumptions C104_time_and_day.

(** C105.  The same with a date such as "March 5" followed by a word. *)
Theorem C105_time_and_month_day : forall e sortf text t us pre c k q mid tx x post h mi, sane e -> is_sort sortf -> real_instant t us -> Z.of_nat (List.length text) < 2 ^ 31 ->
  to_lower text = pre ++ c ++ mid ++ tx ++ post -> plain_month_day tx x -> md_to x = None -> 1 <= md_day x <= 31 -> next_word post -> mid <> [] ->
  (forall a b, mid = a ++ [b] -> is_word b = false) -> no_weekday_before (pre ++ c ++ mid) (tx ++ post) ->
  clock_words c k q -> clear_before pre -> clear_after q (mid ++ tx ++ post) -> clock_time k h mi -> seconds_fine k -> on_clock (ck_mark k) h < 24 ->
  ~ zone_follows (mid ++ tx ++ post) -> (forall v, In v connectors -> ~ occurs v post) -> only_time_day e text (ptime_of t us) middle_endian pre c mid tx ->
  exists y, year_meant t x y /\ (real_date (Cal y (md_month x) (md_day x)) ->
    main e sortf gwords_init text (ptime_of t us) = Ret (line (bs (written (day_moment (Cal y (md_month x) (md_day x)) k h mi))))).
Proof.
  intros e sortf text t us pre c k q mid tx x post h mi He Hs H Hn E P Nr Hd NW Nm Sa Nw Cw Cb Ca Ct Sf H24 Nz Nc Al.
  assert (Hn2 : Z.of_nat (List.length text) < 2 ^ 32) by (clear - Hn; lia).
  assert (E2 : to_lower text = (pre ++ c ++ mid) ++ tx ++ post) by (rewrite E, <- !app_assoc; reflexivity).
  assert (Sa' : forall a b, pre ++ c ++ mid = a ++ [b] -> is_word b = false).
  { intros a b Q. destruct (exists_last Nm) as (m0 & b0 & Em). specialize (Sa m0 b0 Em). rewrite Em, !app_assoc in Q. apply app_inj_tail in Q as [_ <-]. exact Sa. }
  destruct (proj2 Al middle_endian in_others_me) as (l & El & _).
  destruct (month_day_result e text t us (pre ++ c ++ mid) tx x post l He H Hn2 P NW E2 Sa' Nw Hd Nr El) as (y & r & Ym & I & St & En & D & N & _ & U).
  exists y. split; [exact Ym|]. intros Rd.
  apply (time_day_main e sortf text t us middle_endian pre c k q mid tx post); auto; [exact in_others_me|exact in_parsers_me|exact (plain_nonempty _ _ P)|].
  intros l' El'. unfold alone in El'. rewrite El in El'. apply RelativeFacts.ret_inj in El'. subst l'. exists r. split; [exact I|]. split; [exact (stands_place _ _ _ St)|]. split; [exact En|]. split; [|split; assumption].
  destruct D as (D1 & D2 & D3 & _). split; [exact D1|]. split; [exact D2|exact D3].
Qed.
Print Assumptions C105_time_and_month_day.

(** the hypotheses are met *)
Definition time_day_only (e : env) (text : bytes) (ref : ptime) (p : parser) (pre c mid w : bytes) : bool :=
  let first := Z.of_nat (List.length pre) in let past := first + Z.of_nat (List.length c) in let second := past + Z.of_nat (List.length mid) in let last := second + Z.of_nat (List.length w) in
  match x_res (execute e time_expression gwords_init text ref) with
  | Ret l => Nat.eqb (List.length (filter (fun r => getIndex r <? past) l)) 1 &&
      forallb (fun r => (getIndex r <? past) || (second <=? getIndex r) && (getIndex r <? last) && (textLength r <? Z.of_nat (List.length w))) l
  | _ => false end &&
  forallb (fun q => match x_res (execute e q gwords_init text ref) with
    | Ret l => forallb (fun r => (second <=? getIndex r) && (getIndex r <? last) && (textLength r <? Z.of_nat (List.length w)) ||
                 (first <=? getIndex r) && (getIndex r <? past - 1) && (textLength r <? Z.of_nat (List.length c))) l ||
               beq (p_pattern q) (p_pattern p) && forallb (fun r => (second <=? getIndex r) && (getIndex r <? last)) l
    | _ => false end) other_parsers.
Lemma time_day_only_ok e text ref p pre c mid w : (forall q, In q other_parsers -> beq (p_pattern q) (p_pattern p) = true -> q = p) -> time_day_only e text ref p pre c mid w = true -> only_time_day e text ref p pre c mid w.
Proof.
  intros Same. unfold time_day_only, only_time_day. revert Same. generalize other_parsers. intros ps Same H. apply andb_prop in H as [H1 H2]. cbv zeta in *. split.
  - destruct (x_res (execute e time_expression gwords_init text ref)) as [l| | | |]; try discriminate. apply andb_prop in H1 as [H1 H3]. exists l. apply Nat.eqb_eq in H1.
    match goal with |- context [filter ?f l] => destruct (filter f l) as [|r [|]] eqn:F; [exfalso; cbn in H1; clear - H1; lia| |exfalso; cbn in H1; clear - H1; lia] end.
    exists r. split; [reflexivity|]. split; [reflexivity|]. intros r0 I0 L0. rewrite forallb_forall in H3. specialize (H3 r0 I0). clear - H3 L0. lia.
  - intros q Iq. rewrite forallb_forall in H2. specialize (H2 q Iq). destruct (x_res (execute e q gwords_init text ref)) as [l| | | |]; try discriminate. exists l. split; [reflexivity|]. intros r Ir.
    apply Bool.orb_true_iff in H2 as [H2|H2]; [rewrite forallb_forall in H2; specialize (H2 r Ir); clear - H2; lia|].
    apply andb_prop in H2 as [H2 H3]. rewrite forallb_forall in H3. specialize (H3 r Ir). left. split; [clear - H3; lia|]. left. apply Same; assumption.
Qed.
Lemma no_zone_comma s : ~ zone_follows (","%char :: s).
Proof.
  intros (abbr & z & (sp & lp & rp & E & B & Hl & _ & [L _] & F) & _). destruct sp as [|b sp]; [|cbn in E; injection E as <- _; inversion B; discriminate].
  destruct Hl as [->| ->]; [|discriminate]. destruct abbr as [|a abbr]; [cbn in L; lia|]. cbn in E. injection E as <- _. inversion F; discriminate.
Qed.
Example C104_case : let t := Moment (Cal 2024 2 27) 9 15 0 in let k := Clock (bs "5") (bs "30") [] Pm in let text := bs "We meet at 5:30 PM, in 5 Days, bring cake" in
  real_instant t 3 /\ neighbours (mdate t) /\ to_lower text = bs "we meet at " ++ bs "5:30 pm" ++ bs ", " ++ bs "in 5 days" ++ bs ", bring cake" /\ separate (bs "we meet at " ++ bs "5:30 pm" ++ bs ", ") (bs ", bring cake") /\
  day_says t deadline (bs "we meet at " ++ bs "5:30 pm" ++ bs ", ") (bs "in 5 days") (bs ", bring cake") (Cal 2024 3 3) /\ real_date (Cal 2024 3 3) /\
  clock_words (bs "5:30 pm") k (bs " pm") /\ clear_before (bs "we meet at ") /\ clear_after (bs " pm") (bs ", " ++ bs "in 5 days" ++ bs ", bring cake") /\ clock_time k 5 30 /\ seconds_fine k /\
  ~ zone_follows (bs ", " ++ bs "in 5 days" ++ bs ", bring cake") /\ (forall v, In v connectors -> ~ occurs v (bs ", bring cake")) /\
  only_time_day strict_env text (ptime_of t 3) deadline (bs "we meet at ") (bs "5:30 pm") (bs ", ") (bs "in 5 days") /\
  main strict_env sort_stable gwords_init text (ptime_of t 3) = Ret (line (bs "2024-Mar-03 17:30:00")).
Proof.
  cbv zeta. split; [inst|]. split; [exists (Cal 2024 2 26), (Cal 2024 2 28); inst|]. split; [reflexivity|]. split; [apply separate_dec; reflexivity|]. split.
  { apply (dy_deadline _ _ _ _ (bs "5") "days" UDay (Whole 5)); [|apply (sp_digits (bs "5")); [repeat constructor|discriminate]|cbn; tauto|concrete].
    exists (bs "in"), (bs " "), (bs " "). split; [reflexivity|]. split; [auto|]. repeat split; try discriminate; repeat constructor. }
  split; [inst|]. split; [exact case_words|].
  split; [apply (clear_letter (bs "we meet a") "t"%char (bs " ")); [repeat constructor|discriminate|reflexivity|cbn; intuition discriminate]|].
  split; [apply (clear_sign (bs " pm") ","%char (bs " in 5 days, bring cake")); [discriminate|reflexivity|reflexivity|cbn; intuition discriminate]|].
  split; [split; [apply (ts_minutes (bs "5") (bs "30") 5); [apply (hs_digits (bs "5")); [repeat constructor|cbn; lia]|repeat constructor|cbn; lia]|]; cbn; lia|].
  split; [left; reflexivity|]. split; [apply (no_zone_comma (bs " in 5 days, bring cake"))|]. split.
  { intros v Iv. cbn in Iv. destruct Iv as [<-|[<-|[<-|[<-|[]]]]]; apply Alphabet.containsb_ok; vm_compute; reflexivity. }
  split; [apply time_day_only_ok; [exact same_deadline|vm_compute; reflexivity]|vm_compute; reflexivity].
Qed.
Example C105_case : let t := Moment (Cal 2024 2 27) 9 15 0 in let k := Clock (bs "5") (bs "30") [] Pm in let text := bs "We meet at 5:30 PM, March 5 at the fair" in let x := MonthDay None 3 5 None None in
  real_instant t 3 /\ to_lower text = bs "we meet at " ++ bs "5:30 pm" ++ bs ", " ++ bs "march 5 " ++ bs "at the fair" /\ plain_month_day (bs "march 5 ") x /\ next_word (bs "at the fair") /\
  no_weekday_before (bs "we meet at " ++ bs "5:30 pm" ++ bs ", ") (bs "march 5 " ++ bs "at the fair") /\
  clock_words (bs "5:30 pm") k (bs " pm") /\ clear_before (bs "we meet at ") /\ clear_after (bs " pm") (bs ", " ++ bs "march 5 " ++ bs "at the fair") /\ clock_time k 5 30 /\ seconds_fine k /\
  ~ zone_follows (bs ", " ++ bs "march 5 " ++ bs "at the fair") /\ (forall v, In v connectors -> ~ occurs v (bs "at the fair")) /\
  only_time_day strict_env text (ptime_of t 3) middle_endian (bs "we meet at ") (bs "5:30 pm") (bs ", ") (bs "march 5 ") /\
  main strict_env sort_stable gwords_init text (ptime_of t 3) = Ret (line (bs "2024-Mar-05 17:30:00")).
Proof.
  cbv zeta. split; [inst|]. split; [reflexivity|].
  assert (P : plain_month_day (bs "march 5 ") (MonthDay None 3 5 None None)) by (apply (plain_case (bs "march") 3 (bs "5")); [exists "march"; left; split; [cbn; tauto|reflexivity]|repeat constructor|cbn; lia]).
  split; [exact P|]. split; [apply no_confusion_ok; vm_compute; reflexivity|]. split; [apply (no_stems _ _ _ _ P eq_refl); [exact (last_sign (bs "we meet at 5:30 pm,") " "%char eq_refl)|vm_compute; reflexivity]|].
  split; [exact case_words|].
  split; [apply (clear_letter (bs "we meet a") "t"%char (bs " ")); [repeat constructor|discriminate|reflexivity|cbn; intuition discriminate]|].
  split; [apply (clear_sign (bs " pm") ","%char (bs " march 5 at the fair")); [discriminate|reflexivity|reflexivity|cbn; intuition discriminate]|].
  split; [split; [apply (ts_minutes (bs "5") (bs "30") 5); [apply (hs_digits (bs "5")); [repeat constructor|cbn; lia]|repeat constructor|cbn; lia]|]; cbn; lia|].
  split; [left; reflexivity|]. split; [apply (no_zone_comma (bs " march 5 at the fair"))|]. split.
  { intros v Iv. cbn in Iv. destruct Iv as [<-|[<-|[<-|[<-|[]]]]]; apply Alphabet.containsb_ok; vm_compute; reflexivity. }
  split; [apply time_day_only_ok; [exact same_me_other|vm_compute; reflexivity]|vm_compute; reflexivity].
Qed.
