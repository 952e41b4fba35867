(** * A connecting word after a day and its clock time makes a range of one moment (C115) *)
From Verif Require Import Base Regex RegexParse Calendar Components Utils Execute Spec View ParserSpec PhraseSpec ClockSpec ClockTextSpec CalendarCycle CalendarFacts RegexFacts ResultFacts
  ExecuteFacts ParserRe MatchFacts LocateFacts HistoryFacts ParserFacts CasualFacts ISOFacts ISOShape HolidayFacts ZoneFacts MergeFacts ClockFacts FoundFacts OverlapFacts P_CasualDate P_ISO P_Holiday P_TimeExpression Prop_Casual Prop_ISO Prop_Holiday Prop_Found Refiners Main Prop_Execute Prop_Refine Prop_Tags
  Prop_Days MainFacts Prop_Main Prop_Answers Prop_Format Prop_Sentence Prop_ClockText Prop_ClockAnswer Prop_DateTime Prop_Range Prop_TimeDay Prop_Tomorrow Prop_Fixed.
From Coq Require Import ZifyBool ZifyNat ZifyN.
Open Scope string_scope.
Open Scope list_scope.
Open Scope Z_scope.

Lemma rest_blank text y lead intro c k q gap post rest res : text = (y ++ lead ++ intro) ++ c ++ post -> lead_sign lead -> post = gap ++ rest -> gap = [] \/ gap = bs " " -> clock_words c k q ->
  getIndex res = Z.of_nat (List.length y) -> r_text res = intro ++ c ++ gap ->
  let u := skipn (Z.to_nat (stops res)) text in (exists g, (g = [] \/ g = bs " ") /\ post = g ++ u) \/ exists d, ender d = true /\ u = d :: post.
Proof.
  intros Et Hl Ep Hg Cw Ix Tx. cbv zeta.
  assert (Es : stops res = Z.of_nat (List.length y + List.length (intro ++ c ++ gap))) by (unfold stops, textLength; rewrite Ix, Tx; lia).
  rewrite Es, Nat2Z.id. rewrite Et, <- !app_assoc. rewrite skip_tail.
  destruct Hl as [->|(x & -> & _)].
  - replace ([] ++ intro ++ c ++ post) with ((intro ++ c ++ gap) ++ rest) by (rewrite Ep, <- !app_assoc; reflexivity).
    replace (List.length (intro ++ c ++ gap)) with (List.length (intro ++ c ++ gap) + 0)%nat by lia. rewrite skip_tail. left. exists gap. split; [exact Hg|exact Ep].
  - destruct Hg as [->| ->].
    + right. destruct (words_end _ _ _ Cw) as (a & d & Ec & Hd). exists d. split; [exact Hd|].
      replace ([x] ++ intro ++ c ++ post) with ((x :: intro ++ a) ++ d :: post) by (rewrite Ec; cbn; rewrite <- !app_assoc; reflexivity).
      replace (List.length (intro ++ c ++ [])) with (List.length (x :: intro ++ a) + 0)%nat by (rewrite Ec; cbn [List.length]; rewrite !app_length; cbn; lia). rewrite skip_tail. reflexivity.
    + left. exists []. split; [left; reflexivity|]. replace ([x] ++ intro ++ c ++ post) with ((x :: intro ++ c) ++ post) by (cbn; rewrite <- !app_assoc; reflexivity).
      replace (List.length (intro ++ c ++ bs " ")) with (List.length (x :: intro ++ c) + 0)%nat by (cbn [List.length]; rewrite !app_length; cbn; lia). rewrite skip_tail. reflexivity.
Qed.
Lemma refined_two_linked text d t c h mi s tt : no_zone text d -> no_zone text t -> res_copy d = d -> res_copy t = t -> no_clock (r_start d) -> time_only t -> has_end d = false -> has_end t = false ->
  on_date (r_start d) c -> getHour (r_start t) = h -> getMinute (r_start t) = mi -> getSeconds (r_start t) = s -> real_moment (Moment c h mi s) ->
  tag_is TExtractTZ d = false -> tag_is TExtractTZ t = false -> Z.of_nat (List.length text) < 2 ^ 31 ->
  0 <= starts d -> 0 < textLength d -> 0 < textLength t -> stops d <= starts t -> stops t <= Z.of_nat (List.length text) ->
  denotes (r_start t) tt -> real_moment tt -> (exists w, In w connectors /\ occurs w (skipn (Z.to_nat (stops t)) text)) ->
  exists m rest, (rs <- tz_refine [d; t] text ;; rs <- mdt_refine rs text ;; mdr_refine rs text) = Ret (m :: rest) /\ toDate m = Ret (bs (written (Moment c h mi s) ++ " - " ++ written (later (Moment c h mi s) tt))%string).
Proof.
  intros Zd Zt Cd Ct Nc To Ed Et Od Hh Hm Hs Rm Td Tt L D0 Ld Lt Dt Ln Dtt Rtt (v & Iv & Ov). rewrite tz_refine_total. cbn [bind map]. rewrite Cd, Ct.
  pose proof (proj1 (tz_one_spec text d) Zd) as S1. pose proof (proj1 (tz_one_spec text t) Zt) as S2. cbv zeta in S1, S2.
  set (d' := res_copy (tz_one tz_re text d)) in *. set (t' := res_copy (tz_one tz_re text t)) in *.
  destruct (same_stops _ _ S1) as (P1 & P2 & P3). destruct (same_stops _ _ S2) as (Q1 & Q2 & Q3).
  assert (To' : time_only t') by (unfold time_only; destruct S2 as (_ & _ & _ & E & _); rewrite E; exact To).
  assert (Nc' : no_clock (r_start d')) by (eapply same_clock; eassumption).
  assert (Hd' : has_end d' = false) by (destruct S1 as (_ & _ & _ & _ & E & _); rewrite E; exact Ed).
  assert (Ht' : has_end t' = false) by (destruct S2 as (_ & _ & _ & _ & E & _); rewrite E; exact Et).
  destruct (C59_between_refuted text d' t') as (m & Em & J); auto; [apply Nc'; cbn; tauto|unfold stops, OverlapFacts.starts in *; lia|apply filled_nonempty; intros E; unfold textLength in Q3, Lt; rewrite E in Q3; cbn in Q3; lia|].
  rewrite Em. cbn [bind]. 
  destruct (C50_merge_moment text (res_copy d') (res_copy t') c h mi s m J) as [Dm Pr].
  { cbn [res_copy r_start]. destruct S1 as (_ & _ & _ & E & _). rewrite E. exact Od. }
  { cbn [res_copy r_start]. destruct S2 as (_ & _ & _ & E & _). rewrite E. exact Hh. }
  { cbn [res_copy r_start]. destruct S2 as (_ & _ & _ & E & _). rewrite E. exact Hm. }
  { cbn [res_copy r_start]. destruct S2 as (_ & _ & _ & E & _). rewrite E. exact Hs. }
  destruct J as (_ & _ & Jx & Jt & Je & _ & Jg).
  assert (U : u32 (Z.min (starts (res_copy d')) (starts (res_copy t'))) = starts d').
  { change (starts (res_copy d')) with (starts d'). change (starts (res_copy t')) with (starts t'). rewrite P2, Q2. clear - D0 Ld Lt Dt Ln L. unfold stops, starts in *. rewrite Z.min_l by lia. unfold u32. apply Z.mod_small. lia. }
  rewrite U in Jx.
  assert (Tl : textLength m = stops t - starts d).
  { unfold textLength. rewrite Jt, firstn_length, skipn_length. change (starts (res_copy d')) with (starts d'). change (starts (res_copy t')) with (starts t'). change (stops (res_copy d')) with (stops d'). change (stops (res_copy t')) with (stops t').
    rewrite P1, P2, Q1, Q2. clear - D0 Ld Lt Dt Ln L. unfold stops, starts in *. lia. }
  assert (Sm : solid text m). { unfold solid. unfold stops in *. unfold starts in *. rewrite Jx, Tl, P2. clear - D0 Ld Lt Dt Ln L. lia. }
  assert (St : solid text (res_copy t')). { unfold solid. change (starts (res_copy t')) with (starts t'). change (stops (res_copy t')) with (stops t'). change (textLength (res_copy t')) with (textLength t'). rewrite Q1, Q2, Q3. clear - D0 Ld Lt Dt Ln L. unfold stops, starts in *. lia. }
  assert (Sm' : stops m = stops t) by (unfold stops at 1; rewrite Tl; unfold starts in *; rewrite Jx, P2; clear; lia).
  assert (Hm' : has_end m = false) by (rewrite Je; change (has_end (res_copy d')) with (has_end d'); change (has_end (res_copy t')) with (has_end t'); rewrite Hd', Ht'; reflexivity).
  assert (Lk : linked text m (res_copy t')).
  { split; [exact Hm'|]. split; [exact Ht'|]. exists v. split; [exact Iv|]. unfold between. change (starts (res_copy t')) with (starts t'). rewrite Sm', Q2.
    replace (stops t <=? starts t) with false by (clear - Lt; unfold stops, starts in *; lia). rewrite firstn_all2 by (clear; rewrite skipn_length; lia). exact Ov. }
  assert (Dt' : denotes (r_start (res_copy t')) tt) by (cbn [res_copy r_start]; destruct S2 as (_ & _ & _ & E & _); rewrite E; exact Dtt).
  destruct (mdr_linked text m (res_copy t') (Moment c h mi s) tt Sm St L Lk Dm Dt' Rm Rtt) as (o & rest & Eo & Rg).
  exists o, rest. split; [exact Eo|]. destruct Rg as (pa & pb & A1 & A2 & Rg). cbv zeta in Rg. cbn [r_start res_copy] in A1, A2. rewrite (pc_date_denotes _ _ Dm Rm) in A1. cbn [res_copy r_start] in Dt'. rewrite (pc_date_denotes _ _ Dt' Rtt) in A2.
  injection A1 as <-. injection A2 as <-. rewrite moment_order in Rg. unfold later.
  assert (Gt : tag_is TExtractTZ t' = false) by (destruct S2 as (_ & _ & _ & _ & _ & _ & G2); rewrite G2; exact Tt).
  assert (Gm : tag_is TExtractTZ m = false).
  { rewrite Jg. cbn [r_tags res_copy]. destruct S1 as (_ & _ & _ & _ & _ & _ & G1). specialize (G1 TExtractTZ). rewrite Td, tag_is_tags in G1.
    destruct (r_tags d' TExtractTZ) as [b|]; [exact G1|]. rewrite tag_is_tags. cbn [r_tags res_copy]. rewrite <- tag_is_tags, Gt. reflexivity. }
  assert (Ga : forall b, r_tags (res_copy m) TExtractTZ = Some b -> b = false) by (intros b Eb; rewrite tag_is_tags in Gm; cbn [r_tags res_copy] in Eb; rewrite Eb in Gm; exact Gm).
  assert (Gc : forall x, tag_is TExtractTZ (res_copy x) = tag_is TExtractTZ x) by (intros x; rewrite !tag_is_tags; reflexivity).
  destruct (sec_count tt <? sec_count (Moment c h mi s)); destruct Rg as (M1 & M2 & M3 & _ & _ & _ & M4); cbn [r_start res_copy] in M1, M3.
  + apply toDate_range; auto; [rewrite M1; exact Dm|rewrite M4|rewrite M3; exact Dm].
    destruct (r_tags (res_copy m) TExtractTZ) as [b|]; [apply Ga; reflexivity|]. rewrite !Gc, Gm. reflexivity.
  + apply toDate_range; auto; [rewrite M1; exact Dm|rewrite M4|rewrite M3; exact Dt'].
    destruct (r_tags (res_copy m) TExtractTZ) as [b|]; [apply Ga; reflexivity|]. rewrite !Gc, Gt. reflexivity.
Qed.
Lemma pair_linked e sortf text t us p pre w mid c k q post d h mi : sane e -> is_sort sortf -> real_instant t us -> Z.of_nat (List.length text) < 2 ^ 31 ->
  to_lower text = pre ++ w ++ mid ++ c ++ post -> In p other_parsers -> In p parsers -> w <> [] -> mid <> [] -> day_result e text (ptime_of t us) p pre w d -> real_date d ->
  clock_words c k q -> clear_before (pre ++ w ++ mid) -> clear_after q post -> clock_time k h mi -> seconds_fine k -> on_clock (ck_mark k) h < 24 ->
  ~ zone_follows post -> (exists v, In v connectors /\ occurs v post) -> only_pair e text (ptime_of t us) p pre w mid c ->
  main e sortf gwords_init text (ptime_of t us) = Ret (line (bs (written (day_moment d k h mi) ++ " - " ++ written (later (day_moment d k h mi) (clock_moment t k h mi)))%string)).
Proof.
  intros He Hs H Hn E Jp Ip' Nw Nm Ds Rd Cw Cb Ca Ct Sf H24 Nz (v & Iv & Ov) [(lt & rt & Et & Ef & Bt) Al].
  assert (Hn2 : Z.of_nat (List.length text) < 2 ^ 32) by (clear - Hn; lia).
  destruct (words_start _ _ _ Cw) as (c0 & c' & Ec & Hc0).
  assert (Lm : (1 <= List.length mid)%nat) by (destruct mid; [congruence|cbn [List.length]; clear; lia]).
  assert (Lc : (1 <= List.length c)%nat) by (rewrite Ec; cbn [List.length]; clear; lia).
  assert (E2 : to_lower text = (pre ++ w ++ mid) ++ c ++ post) by (rewrite E, <- !app_assoc; reflexivity).
  destruct (clock_stands e gwords_init text t us lt (pre ++ w ++ mid) c k q post h mi He H Hn2 E2 Cw Cb Ca Ct Sf Et)
    as (res & y & lead & intro & gap & rest & It & Ey & Hl & Op & Ep & Hg & Ix & Tx & En & At & T1 & T2).
  assert (Ly : Z.of_nat (List.length pre) + Z.of_nat (List.length w) + Z.of_nat (List.length mid) = getIndex res + Z.of_nat (List.length lead) + Z.of_nat (List.length intro)).
  { rewrite Ix. apply (f_equal (@List.length ascii)) in Ey. rewrite !app_length in Ey. clear - Ey. lia. }
  assert (Ll : Z.of_nat (List.length lead) <= 1) by (destruct Hl as [->|(x & -> & _)]; cbn [List.length]; clear; lia).
  assert (Lt : textLength res = Z.of_nat (List.length intro) + Z.of_nat (List.length c) + Z.of_nat (List.length gap)) by (unfold textLength; rewrite Tx, !app_length; clear; lia).
  set (first := Z.of_nat (List.length pre)) in *. set (past := first + Z.of_nat (List.length w)) in *. set (second := past + Z.of_nat (List.length mid)) in *.
  assert (Late : past <= getIndex res).
  { destruct (Z_lt_ge_dec (getIndex res) past) as [L|G]; [|clear - G; lia]. destruct (Bt res It L) as (_ & B & _). clear - B Lt Ly Ll Lm Lc. lia. }
  assert (Er : rt = res). { assert (I : In res (filter (fun r => past <=? getIndex r) lt)) by (apply filter_In; split; [exact It|clear - Late; lia]). rewrite Ef in I. destruct I as [I|[]]; exact I. }
  subst rt.
  destruct (Al p Jp) as (lp & Elp & Blp).
  destruct (Ds lp Elp) as (dr & Id & (Dx & Ld) & De & Do & Dn & Dut).
  assert (Lw : 0 < Z.of_nat (List.length w)) by (destruct w; [congruence|cbn [List.length]; clear; lia]).
  assert (A : exists rs, all_alone e parsers text (ptime_of t us) = Ret rs).
  { assert (Q : exists rss, Forall2 (fun p l => alone e p text (ptime_of t us) = Ret l) parsers rss).
    { assert (Al' : forall p, In p parsers -> exists l, alone e p text (ptime_of t us) = Ret l).
      { intros q0 Iq. apply others in Iq as [<-|Iq]; [eexists; exact Et|]. destruct (Al q0 Iq) as (l & El & _). eexists; exact El. }
      revert Al'. clear. generalize parsers as ps. induction ps as [|p ps IH]; intros Al; [exists []; constructor|]. destruct (Al p (or_introl eq_refl)) as (l & El).
      destruct IH as [rss F]; [intros q' I'; apply Al; right; exact I'|]. exists (l :: rss). constructor; assumption. }
    destruct Q as [rss F]. exists (List.concat rss). apply all_alone_ret. eauto. }
  destruct A as [rs A]. assert (It' : In time_expression parsers) by (cbn; tauto).
  assert (Ir : In res rs) by (apply (all_alone_in _ _ _ _ _ A); exists time_expression, lt; split; [exact It'|split; [exact Et|exact It]]).
  assert (Idr : In dr rs) by (apply (all_alone_in _ _ _ _ _ A); exists p, lp; split; [exact Ip'|split; [exact Elp|exact Id]]).
  assert (Apart : getIndex dr + textLength dr <= getIndex res) by (rewrite Dx, Ld; fold first; clear - Late; lia).
  rewrite (main_two e sortf text (ptime_of t us) rs dr res He Hs A Idr Ir Apart).
  - assert (Cp : forall x, In x rs -> res_copy x = x).
    { intros x Ixx. apply (all_alone_in _ _ _ _ _ A) in Ixx as (p0 & l & Ip0 & Xp & Il). pose proof (execute_copies _ _ _ _ _ _ Xp) as E0.
      clear - E0 Il. induction l as [|y l IH]; [contradiction|]. cbn [map] in E0. injection E0 as E1 E2. destruct Il as [<-|Il]; auto. }
    assert (Sl : stops res <= Z.of_nat (List.length (to_lower text))).
    { pose proof (C13_results_in_order _ _ _ _ _ _ He (in_all _ It') Hn2 Et) as O. assert (Lo : List.length (to_lower text) = List.length text) by (unfold to_lower; apply map_length). rewrite Lo.
      clear - O It. unfold stops. induction O as [|x l H1 H2 H3 O IH]; [contradiction|]. destruct It as [<-|It]; [exact H2|exact (IH It)]. }
    assert (Hgap : gap = [] \/ gap = bs " ") by (rewrite Hg; destruct post as [|b0 post0]; [auto|]; cbn; destruct (Ascii.eqb b0 " "); auto).
    pose proof (rest_blank (to_lower text) y lead intro c k q gap post rest res) as Ra. rewrite E2, Ey in Ra. specialize (Ra eq_refl Hl Ep Hgap Cw Ix Tx). rewrite <- Ey, <- E2 in Ra. cbv zeta in Ra.
    pose proof (at_time_denotes _ _ _ _ _ Sf At) as (_ & _ & _ & G1 & G2 & G3). unfold clock_moment in G1, G2, G3. cbn [mhour mmin msec] in G1, G2, G3.
    destruct (refined_two_linked (to_lower text) dr res d (on_clock (ck_mark k) h) mi (match ck_sec k with [] => 0 | ss => decimal ss end) (clock_moment t k h mi)) as (m & ms & M1 & M2); auto.
    + apply untimed_no_zone. exact Dut.
    + apply (clock_no_zone (to_lower text) y lead intro c k q gap post rest); auto; [rewrite E2, Ey; reflexivity|apply Ca].
    + destruct At as (_ & _ & _ & (_ & U1 & U2) & _). split; [apply U1|apply U2].
    + pose proof (clock_real t us c k q h mi H Cw Ct Sf H24) as R. unfold real_moment in *. unfold clock_moment in R. cbn [mdate mhour mmin msec] in R |- *. split; [exact Rd|apply R].
    + apply (C73_no_refiner_tag e p gwords_init text (ptime_of t us) lp dr TExtractTZ He (in_all _ Ip') Elp Id). left. reflexivity.
    + apply (C73_no_refiner_tag e time_expression gwords_init text (ptime_of t us) lt res TExtractTZ He (in_all _ It') Et It). left. reflexivity.
    + unfold to_lower. rewrite map_length. exact Hn.
    + unfold OverlapFacts.starts. rewrite Dx. unfold first. clear. lia.
    + rewrite Ld. exact Lw.
    + rewrite Lt. clear - Lc. lia.
    + apply at_time_denotes; assumption.
    + eapply clock_real; eassumption.
    + exists v. split; [exact Iv|]. destruct Ra as [(g & Hg2 & Eg)|(d0 & Hd & Eu)].
      * destruct Hg2 as [-> | ->]; cbn [app] in Eg; [rewrite <- Eg; exact Ov|]. rewrite Eg in Ov. destruct Ov as (p0 & q0 & Eo).
        assert (Hv : exists x v', v = x :: v' /\ x <> " "%char) by (cbn in Iv; destruct Iv as [<-|[<-|[<-|[<-|[]]]]]; cbn; eexists; eexists; (split; [reflexivity|discriminate])).
        destruct Hv as (x & v' & -> & Nx). destruct p0 as [|x0 p0]; cbn in Eo; injection Eo as Eo1 Eo2; [congruence|]. exists p0, q0. exact Eo2.
      * rewrite Eu. destruct Ov as (p0 & q0 & Eo). exists (d0 :: p0), q0. rewrite Eo. reflexivity.
    + rewrite M1. cbn [bind show]. rewrite M2. reflexivity.
  - intros r Irr. apply (all_alone_in _ _ _ _ _ A) in Irr as (p0 & l0 & Ip0 & X0 & Il0). apply others in Ip0 as [<-|Ip0].
    + unfold alone in X0. rewrite Et in X0. apply RelativeFacts.ret_inj in X0. subst l0. destruct (Z_lt_ge_dec (getIndex r) past) as [L|G].
      * destruct (Bt r Il0 L) as (B1 & B2 & B3). right. right. left. rewrite Dx, Ld. fold first. clear - B1 B2 B3 L Lw. lia.
      * right. left. assert (I : In r (filter (fun r => past <=? getIndex r) lt)) by (apply filter_In; split; [exact Il0|clear - G; lia]). rewrite Ef in I. destruct I as [I|[]]; auto.
    + destruct (Al p0 Ip0) as (l1 & El1 & B1). unfold alone in X0. rewrite El1 in X0. apply RelativeFacts.ret_inj in X0. subst l1. destruct (B1 r Il0) as [(B2 & [->|B3])|(B2 & B3)].
      * left. rewrite Elp in El1. apply RelativeFacts.ret_inj in El1. subst l0.
        pose proof (result_text _ _ _ _ _ _ _ He (in_all p Ip') Elp Il0) as T0.
        apply (in_order_unique (Z.of_nat (List.length text)) lp); auto.
        { apply (C13_results_in_order _ _ _ _ _ _ He (in_all p Ip') Hn2 Elp). }
        { rewrite Ld. exact Lw. }
        { unfold textLength. destruct (r_text r); [congruence|cbn [List.length]; clear; lia]. }
        { rewrite Dx, Ld. fold first. clear - B2. lia. }
      * right. right. left. rewrite Dx, Ld. fold first. clear - B2 B3. lia.
      * right. right. right. rewrite Lt. clear - B2 B3 Ly Ll Lc. lia.
Qed.
(** C115.  The situation of C96 - a day, later a clock time, nothing else recognised - but with a connecting word ("and", "to", "through", "-", even inside another word) somewhere after the time.
    Then the program prints a range that starts at that day and time and ends at the reference date at that time, or at the start if that is later. *)
Theorem C115_connecting_word_after : forall e sortf text t us p pre w mid c k q post d h mi, sane e -> is_sort sortf -> real_instant t us -> neighbours (mdate t) -> Z.of_nat (List.length text) < 2 ^ 31 ->
  to_lower text = pre ++ w ++ mid ++ c ++ post -> separate pre (mid ++ c ++ post) -> day_says t p pre w (mid ++ c ++ post) d -> real_date d ->
  (p = casual_date -> forall x b, mid = x :: b -> is_space x = false) ->
  clock_words c k q -> clear_before (pre ++ w ++ mid) -> clear_after q post -> clock_time k h mi -> seconds_fine k -> on_clock (ck_mark k) h < 24 ->
  ~ zone_follows post -> (exists v, In v connectors /\ occurs v post) -> only_pair e text (ptime_of t us) p pre w mid c ->
  main e sortf gwords_init text (ptime_of t us) = Ret (line (bs (written (day_moment d k h mi) ++ " - " ++ written (later (day_moment d k h mi) (clock_moment t k h mi)))%string)).
Proof.
  intros e sortf text t us p pre w mid c k q post d h mi He Hs H N Hn E Sp Ds Rd Nb Cw Cb Ca Ct Sf H24 Nz Nc Al.
  destruct (day_parser _ _ _ _ _ _ Ds) as (Nw & Ip & _). destruct (words_start _ _ _ Cw) as (c0 & c' & Ec & Hc0).
  assert (Nm : mid <> []). { intros ->. destruct Sp as [_ Sp]. cbn [app] in Sp. rewrite Ec in Sp. specialize (Sp c0 (c' ++ post) eq_refl). congruence. }
  apply (pair_linked e sortf text t us p pre w mid c k q post d h mi); auto; [exact (day_in p Ip)|exact (plain_in p Ip)|].
  intros lp Elp. assert (Hn2 : Z.of_nat (List.length text) < 2 ^ 32) by (clear - Hn; lia).
  destruct (day_found e text t us p pre w (mid ++ c ++ post) d lp He H N Hn2 E Sp Ds Rd) as (dr & Id & Sd & De & Do & Dn); [|exact Elp|].
  { intros Q x b Eb. destruct mid as [|x' mid]; [congruence|]. cbn in Eb. injection Eb as -> _. eapply Nb; [exact Q|reflexivity]. }
  exists dr. split; [exact Id|]. split; [exact (stands_place _ _ _ Sd)|]. repeat (split; [assumption|]). exact (plain_untimed e p text _ lp dr He Ip Elp Id).
Qed.
Print Assumptions C115_connecting_word_after.
Example C115_case : let t := Moment (Cal 2024 2 27) 9 15 0 in let k := Clock (bs "5") (bs "30") [] Pm in let text := bs "We met yesterday, at 5:30 PM, and ate cake" in
  real_instant t 3 /\ neighbours (mdate t) /\ to_lower text = bs "we met " ++ bs "yesterday" ++ bs ", at " ++ bs "5:30 pm" ++ bs ", and ate cake" /\ separate (bs "we met ") (bs ", at " ++ bs "5:30 pm" ++ bs ", and ate cake") /\
  day_says t casual_date (bs "we met ") (bs "yesterday") (bs ", at " ++ bs "5:30 pm" ++ bs ", and ate cake") (Cal 2024 2 26) /\ real_date (Cal 2024 2 26) /\
  (forall x b, bs ", at " = x :: b -> is_space x = false) /\
  clock_words (bs "5:30 pm") k (bs " pm") /\ clear_before (bs "we met " ++ bs "yesterday" ++ bs ", at ") /\ clear_after (bs " pm") (bs ", and ate cake") /\ clock_time k 5 30 /\ seconds_fine k /\
  ~ zone_follows (bs ", and ate cake") /\ (exists v, In v connectors /\ occurs v (bs ", and ate cake")) /\
  only_pair strict_env text (ptime_of t 3) casual_date (bs "we met ") (bs "yesterday") (bs ", at ") (bs "5:30 pm") /\
  main strict_env sort_stable gwords_init text (ptime_of t 3) = Ret (line (bs "2024-Feb-26 17:30:00 - 2024-Feb-27 17:30:00")).
Proof.
  cbv zeta. split; [inst|]. split; [exists (Cal 2024 2 26), (Cal 2024 2 28); inst|]. split; [reflexivity|]. split; [apply separate_dec; reflexivity|]. split.
  { apply dy_yesterday. concrete. }
  split; [inst|]. split; [intros x b E; injection E as <- _; reflexivity|]. split; [exact case_words|].
  split; [apply (clear_letter (bs "we met yesterday, a") "t"%char (bs " ")); [repeat constructor|discriminate|reflexivity|cbn; intuition discriminate]|].
  split; [apply (clear_sign (bs " pm") ","%char (bs " and ate cake")); [discriminate|reflexivity|reflexivity|cbn; intuition discriminate]|].
  split; [exact half_past_five|]. split; [left; reflexivity|]. split; [apply no_zone_comma|].
  split; [exists (bs "and"); split; [cbn; tauto|exists (bs ", "), (bs " ate cake"); reflexivity]|].
  split; [apply pair_only_ok; [exact same_casual|vm_compute; reflexivity]|vm_compute; reflexivity].
Qed.
