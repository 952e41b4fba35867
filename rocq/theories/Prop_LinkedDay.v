(** * A connecting word after a clock time and its day (C116) *)
From Verif Require Import Base Regex RegexParse Calendar Components Utils Execute Spec View ParserSpec PhraseSpec ClockSpec ClockTextSpec CalendarCycle CalendarFacts RegexFacts ResultFacts
  ExecuteFacts ParserRe MatchFacts LocateFacts HistoryFacts ParserFacts CasualFacts ISOFacts ISOShape HolidayFacts ZoneFacts MergeFacts ClockFacts FoundFacts OverlapFacts P_CasualDate P_ISO P_Holiday P_TimeExpression Prop_Casual Prop_ISO Prop_Holiday Prop_Found Refiners Main Prop_Execute Prop_Refine Prop_Tags
  Prop_Days MainFacts Prop_Main Prop_Answers Prop_Format Prop_Sentence Prop_ClockText Prop_ClockAnswer Prop_DateTime Prop_Range Prop_TimeDay Prop_Tomorrow Prop_Fixed Prop_Linked.
From Coq Require Import ZifyBool ZifyNat ZifyN.
Open Scope string_scope.
Open Scope list_scope.
Open Scope Z_scope.

Lemma refined_time_linked text d t c h mi s dm : no_zone text d -> no_zone text t -> res_copy d = d -> res_copy t = t -> no_clock (r_start d) -> time_only t -> is_certain Hour (r_start t) = true -> has_end d = false -> has_end t = false ->
  on_date (r_start d) c -> getHour (r_start t) = h -> getMinute (r_start t) = mi -> getSeconds (r_start t) = s -> real_moment (Moment c h mi s) ->
  tag_is TExtractTZ d = false -> tag_is TExtractTZ t = false -> Z.of_nat (List.length text) < 2 ^ 31 ->
  0 <= starts t -> 0 < textLength d -> 0 < textLength t -> stops t <= starts d -> stops d <= Z.of_nat (List.length text) ->
  denotes (r_start d) dm -> real_moment dm -> (exists w, In w connectors /\ occurs w (skipn (Z.to_nat (stops d)) text)) ->
  exists m rest, (rs <- tz_refine [t; d] text ;; rs <- mdt_refine rs text ;; mdr_refine rs text) = Ret (m :: rest) /\ toDate m = Ret (bs (written (Moment c h mi s) ++ " - " ++ written (later (Moment c h mi s) dm))%string).
Proof.
  intros Zd Zt Cd Ct Nc To Th Ed Et Od Hh Hm Hs Rm Td Tt L D0 Ld Lt Dt Ln Ddm Rdm (v & Iv & Ov). rewrite tz_refine_total. cbn [bind map]. rewrite Cd, Ct.
  pose proof (proj1 (tz_one_spec text d) Zd) as S1. pose proof (proj1 (tz_one_spec text t) Zt) as S2. cbv zeta in S1, S2.
  set (d' := res_copy (tz_one tz_re text d)) in *. set (t' := res_copy (tz_one tz_re text t)) in *.
  destruct (same_stops _ _ S1) as (P1 & P2 & P3). destruct (same_stops _ _ S2) as (Q1 & Q2 & Q3).
  assert (To' : time_only t') by (unfold time_only; destruct S2 as (_ & _ & _ & E & _); rewrite E; exact To).
  assert (Th' : is_certain Hour (r_start t') = true) by (destruct S2 as (_ & _ & _ & E & _); rewrite E; exact Th).
  assert (Nc' : no_clock (r_start d')) by (eapply same_clock; eassumption).
  assert (Hd' : has_end d' = false) by (destruct S1 as (_ & _ & _ & _ & E & _); rewrite E; exact Ed).
  assert (Ht' : has_end t' = false) by (destruct S2 as (_ & _ & _ & _ & E & _); rewrite E; exact Et).
  destruct (mdt_time_first text d' t') as (m & Em & J); auto; [apply Nc'; cbn; tauto|unfold stops, OverlapFacts.starts in *; lia|unfold stops, OverlapFacts.starts in *; lia|apply filled_nonempty; intros E; unfold textLength in P3, Ld; rewrite E in P3; cbn in P3; lia|].
  rewrite Em. cbn [bind].
  destruct (C50_merge_moment text (res_copy d') (res_copy t') c h mi s m J) as [Dm Pr].
  { cbn [res_copy r_start]. destruct S1 as (_ & _ & _ & E & _). rewrite E. exact Od. }
  { cbn [res_copy r_start]. destruct S2 as (_ & _ & _ & E & _). rewrite E. exact Hh. }
  { cbn [res_copy r_start]. destruct S2 as (_ & _ & _ & E & _). rewrite E. exact Hm. }
  { cbn [res_copy r_start]. destruct S2 as (_ & _ & _ & E & _). rewrite E. exact Hs. }
  destruct J as (_ & _ & Jx & Jt & Je & _ & Jg).
  assert (U : u32 (Z.min (starts (res_copy d')) (starts (res_copy t'))) = starts t').
  { change (starts (res_copy d')) with (starts d'). change (starts (res_copy t')) with (starts t'). rewrite P2, Q2. clear - D0 Ld Lt Dt Ln L. unfold stops, starts in *. rewrite Z.min_r by lia. unfold u32. apply Z.mod_small. lia. }
  rewrite U in Jx.
  assert (Tl : textLength m = stops d - starts t).
  { unfold textLength. rewrite Jt, firstn_length, skipn_length. change (starts (res_copy d')) with (starts d'). change (starts (res_copy t')) with (starts t'). change (stops (res_copy d')) with (stops d'). change (stops (res_copy t')) with (stops t').
    rewrite P1, P2, Q1, Q2. clear - D0 Ld Lt Dt Ln L. unfold stops, starts in *. lia. }
  assert (Sm : solid text m). { unfold solid. unfold stops in *. unfold starts in *. rewrite Jx, Tl, Q2. clear - D0 Ld Lt Dt Ln L. lia. }
  assert (St : solid text (res_copy d')). { unfold solid. change (starts (res_copy d')) with (starts d'). change (stops (res_copy d')) with (stops d'). change (textLength (res_copy d')) with (textLength d'). rewrite P1, P2, P3. clear - D0 Ld Lt Dt Ln L. unfold stops, starts in *. lia. }
  assert (Sm' : stops m = stops d) by (unfold stops at 1; rewrite Tl; unfold starts in *; rewrite Jx, Q2; clear; lia).
  assert (Hm' : has_end m = false) by (rewrite Je; change (has_end (res_copy d')) with (has_end d'); change (has_end (res_copy t')) with (has_end t'); rewrite Hd', Ht'; reflexivity).
  assert (Lk : linked text m (res_copy d')).
  { split; [exact Hm'|]. split; [exact Hd'|]. exists v. split; [exact Iv|]. unfold between. change (starts (res_copy d')) with (starts d'). rewrite Sm', P2.
    replace (stops d <=? starts d) with false by (clear - Ld; unfold stops, starts in *; lia). rewrite firstn_all2 by (clear; rewrite skipn_length; lia). exact Ov. }
  assert (Dt' : denotes (r_start (res_copy d')) dm) by (cbn [res_copy r_start]; destruct S1 as (_ & _ & _ & E & _); rewrite E; exact Ddm).
  destruct (mdr_linked text m (res_copy d') (Moment c h mi s) dm Sm St L Lk Dm Dt' Rm Rdm) as (o & rest & Eo & Rg).
  exists o, rest. split; [exact Eo|]. destruct Rg as (pa & pb & A1 & A2 & Rg). cbv zeta in Rg. cbn [r_start res_copy] in A1, A2. rewrite (pc_date_denotes _ _ Dm Rm) in A1. cbn [res_copy r_start] in Dt'. rewrite (pc_date_denotes _ _ Dt' Rdm) in A2.
  injection A1 as <-. injection A2 as <-. rewrite moment_order in Rg. unfold later.
  assert (Gt : tag_is TExtractTZ t' = false) by (destruct S2 as (_ & _ & _ & _ & _ & _ & G2); rewrite G2; exact Tt).
  assert (Gd : tag_is TExtractTZ d' = false) by (destruct S1 as (_ & _ & _ & _ & _ & _ & G1); rewrite G1; exact Td).
  assert (Gm : tag_is TExtractTZ m = false).
  { rewrite Jg. cbn [r_tags res_copy]. destruct S1 as (_ & _ & _ & _ & _ & _ & G1). specialize (G1 TExtractTZ). rewrite Td, tag_is_tags in G1.
    destruct (r_tags d' TExtractTZ) as [b|]; [exact G1|]. rewrite tag_is_tags. cbn [r_tags res_copy]. rewrite <- tag_is_tags, Gt. reflexivity. }
  assert (Ga : forall b, r_tags (res_copy m) TExtractTZ = Some b -> b = false) by (intros b Eb; rewrite tag_is_tags in Gm; cbn [r_tags res_copy] in Eb; rewrite Eb in Gm; exact Gm).
  assert (Gc : forall x, tag_is TExtractTZ (res_copy x) = tag_is TExtractTZ x) by (intros x; rewrite !tag_is_tags; reflexivity).
  destruct (sec_count dm <? sec_count (Moment c h mi s)); destruct Rg as (M1 & M2 & M3 & _ & _ & _ & M4); cbn [r_start res_copy] in M1, M3.
  + apply toDate_range; auto; [rewrite M1; exact Dm|rewrite M4|rewrite M3; exact Dm].
    destruct (r_tags (res_copy m) TExtractTZ) as [b|]; [apply Ga; reflexivity|]. rewrite !Gc, Gm. reflexivity.
  + apply toDate_range; auto; [rewrite M1; exact Dm|rewrite M4|rewrite M3; exact Dt'].
    destruct (r_tags (res_copy m) TExtractTZ) as [b|]; [apply Ga; reflexivity|]. rewrite !Gc, Gd. reflexivity.
Qed.
(** as [day_result], and the components of the result denote [dm] *)
Definition day_result_at (e : env) (text : bytes) (ref : ptime) (p : parser) (pre w : bytes) (d : cal) (dm : moment) : Prop :=
  forall l, alone e p text ref = Ret l -> exists res, In res l /\ (getIndex res = Z.of_nat (List.length pre) /\ textLength res = Z.of_nat (List.length w)) /\ has_end res = false /\ on_date (r_start res) d /\ no_clock (r_start res) /\
    tag_is TTimeExpression res = false /\ denotes (r_start res) dm.
(** what a day phrase alone is answered with: midnight, and for "yesterday" the full hour of the reference moment (C18) *)
Definition day_only_moment (t : moment) (w : bytes) (d : cal) : moment := Moment d (if beq w (bs "yesterday") then mhour t else 0) 0 0.
Lemma time_day_linked e sortf text t us p pre c k q mid w post d h mi dm : sane e -> is_sort sortf -> real_instant t us -> Z.of_nat (List.length text) < 2 ^ 31 ->
  to_lower text = pre ++ c ++ mid ++ w ++ post -> In p other_parsers -> In p parsers -> w <> [] -> mid <> [] -> day_result_at e text (ptime_of t us) p (pre ++ c ++ mid) w d dm -> real_date d -> real_moment dm ->
  clock_words c k q -> clear_before pre -> clear_after q (mid ++ w ++ post) -> clock_time k h mi -> seconds_fine k -> on_clock (ck_mark k) h < 24 ->
  ~ zone_follows (mid ++ w ++ post) -> (exists v, In v connectors /\ occurs v post) -> only_time_day e text (ptime_of t us) p pre c mid w ->
  main e sortf gwords_init text (ptime_of t us) = Ret (line (bs (written (day_moment d k h mi) ++ " - " ++ written (later (day_moment d k h mi) dm))%string)).
Proof.
  intros He Hs H Hn E Jp Ip' Nw Nm Ds Rd Rdm Cw Cb Ca Ct Sf H24 Nz (v & Iv & Ov) [(lt & rt & Et & Ef & Bt) Al].
  assert (Hn2 : Z.of_nat (List.length text) < 2 ^ 32) by (clear - Hn; lia).
  destruct (words_start _ _ _ Cw) as (c0 & c' & Ec & Hc0).
  assert (Lm : (1 <= List.length mid)%nat) by (destruct mid; [congruence|cbn [List.length]; clear; lia]).
  assert (Lc : (1 <= List.length c)%nat) by (rewrite Ec; cbn [List.length]; clear; lia).
  destruct (clock_stands e gwords_init text t us lt pre c k q (mid ++ w ++ post) h mi He H Hn2 E Cw Cb Ca Ct Sf Et)
    as (res & y & lead & intro & gap & rest & It & Ey & Hl & Op & Ep & Hg & Ix & Tx & En & At & T1 & T2).
  assert (Hgap : gap = [] \/ gap = bs " ") by (rewrite Hg; destruct (mid ++ w ++ post) as [|b0 post0]; [auto|]; cbn; destruct (Ascii.eqb b0 " "); auto).
  assert (Lg : Z.of_nat (List.length gap) <= 1) by (destruct Hgap as [-> | ->]; cbn [List.length]; clear; vm_compute; discriminate).
  assert (Ly : Z.of_nat (List.length pre) = getIndex res + Z.of_nat (List.length lead) + Z.of_nat (List.length intro)).
  { rewrite Ix. apply (f_equal (@List.length ascii)) in Ey. rewrite !app_length in Ey. clear - Ey. lia. }
  assert (Ll : Z.of_nat (List.length lead) <= 1) by (destruct Hl as [->|(x & -> & _)]; cbn [List.length]; clear; lia).
  assert (Lt : textLength res = Z.of_nat (List.length intro) + Z.of_nat (List.length c) + Z.of_nat (List.length gap)) by (unfold textLength; rewrite Tx, !app_length; clear; lia).
  set (first := Z.of_nat (List.length pre)) in *. set (past := first + Z.of_nat (List.length c)) in *. set (second := past + Z.of_nat (List.length mid)) in *. set (last := second + Z.of_nat (List.length w)) in *.
  assert (Early : getIndex res < past) by (clear - Ly Lc; lia).
  assert (Er : rt = res). { assert (I : In res (filter (fun r => getIndex r <? past) lt)) by (apply filter_In; split; [exact It|clear - Early; lia]). rewrite Ef in I. destruct I as [I|[]]; exact I. }
  subst rt.
  destruct (Al p Jp) as (lp & Elp & Blp).
  destruct (Ds lp Elp) as (dr & Id & (Dx & Ld) & De & Do & Dn & Dut & Ddm).
  assert (Dx' : getIndex dr = second) by (rewrite Dx, !app_length; unfold second, past, first; clear; lia).
  assert (Lw : 0 < Z.of_nat (List.length w)) by (destruct w; [congruence|cbn [List.length]; clear; lia]).
  assert (A : exists rs, all_alone e parsers text (ptime_of t us) = Ret rs).
  { assert (Q : exists rss, Forall2 (fun p l => alone e p text (ptime_of t us) = Ret l) parsers rss).
    { assert (Al' : forall p, In p parsers -> exists l, alone e p text (ptime_of t us) = Ret l).
      { intros q0 Iq. apply others in Iq as [<-|Iq]; [eexists; exact Et|]. destruct (Al q0 Iq) as (l & El & _). eexists; exact El. }
      revert Al'. clear. generalize parsers as ps. induction ps as [|p ps IH]; intros Al; [exists []; constructor|]. destruct (Al p (or_introl eq_refl)) as (l & El).
      destruct IH as [rss F]; [intros q' I'; apply Al; right; exact I'|]. exists (l :: rss). constructor; assumption. }
    destruct Q as [rss F]. exists (List.concat rss). apply all_alone_ret. eauto. }
  destruct A as [rs A]. assert (It' : In time_expression parsers) by (cbn; tauto).
  assert (Ir : In res rs) by (apply (all_alone_in _ _ _ _ _ A); exists time_expression, lt; split; [exact It'|split; [exact Et|exact It]]).
  assert (Idr : In dr rs) by (apply (all_alone_in _ _ _ _ _ A); exists p, lp; split; [exact Ip'|split; [exact Elp|exact Id]]).
  assert (Apart : getIndex res + textLength res <= getIndex dr) by (rewrite Dx', Lt; clear - Ly Lm Ll Lg; lia).
  rewrite (main_two e sortf text (ptime_of t us) rs res dr He Hs A Ir Idr Apart).
  - assert (Cp : forall x, In x rs -> res_copy x = x).
    { intros x Ixx. apply (all_alone_in _ _ _ _ _ A) in Ixx as (p0 & l & Ip0 & Xp & Il). pose proof (execute_copies _ _ _ _ _ _ Xp) as E0.
      clear - E0 Il. induction l as [|y l IH]; [contradiction|]. cbn [map] in E0. injection E0 as E1 E2. destruct Il as [<-|Il]; auto. }
    assert (Lo : List.length (to_lower text) = List.length text) by (unfold to_lower; apply map_length).
    assert (Sl : stops dr = last) by (unfold stops; rewrite Dx', Ld; reflexivity).
    assert (Ln : Z.of_nat (List.length (to_lower text)) = last + Z.of_nat (List.length post)) by (rewrite E, !app_length; unfold last, second, past, first; clear; lia).
    pose proof (at_time_denotes _ _ _ _ _ Sf At) as (_ & _ & _ & G1 & G2 & G3). unfold clock_moment in G1, G2, G3. cbn [mhour mmin msec] in G1, G2, G3.
    destruct (refined_time_linked (to_lower text) dr res d (on_clock (ck_mark k) h) mi (match ck_sec k with [] => 0 | ss => decimal ss end) dm) as (m & ms & M1 & M2); auto.
    + apply untimed_no_zone. exact Dut.
    + apply (clock_no_zone (to_lower text) y lead intro c k q gap (mid ++ w ++ post) rest); auto; [rewrite E, Ey; reflexivity|apply Ca].
    + destruct At as (_ & _ & _ & (_ & U1 & U2) & _). split; [apply U1|apply U2].
    + destruct At as (A1 & _). apply A1.
    + pose proof (clock_real t us c k q h mi H Cw Ct Sf H24) as R. unfold real_moment in *. unfold clock_moment in R. cbn [mdate mhour mmin msec] in R |- *. split; [exact Rd|apply R].
    + apply (C73_no_refiner_tag e p gwords_init text (ptime_of t us) lp dr TExtractTZ He (in_all _ Ip') Elp Id). left. reflexivity.
    + apply (C73_no_refiner_tag e time_expression gwords_init text (ptime_of t us) lt res TExtractTZ He (in_all _ It') Et It). left. reflexivity.
    + rewrite Lo. exact Hn.
    + unfold OverlapFacts.starts. rewrite Ix. clear. lia.
    + rewrite Ld. exact Lw.
    + rewrite Lt. clear - Lc. lia.
    + rewrite Sl, Ln. clear. lia.
    + exists v. split; [exact Iv|]. rewrite Sl.
      assert (Eq : skipn (Z.to_nat last) (to_lower text) = post); [|rewrite Eq; exact Ov].
      rewrite E. rewrite !app_assoc. rewrite skipn_app, skipn_all2; [|rewrite !app_length; unfold last, second, past, first; clear; lia].
      replace (Z.to_nat last - List.length (((pre ++ c) ++ mid) ++ w))%nat with 0%nat by (rewrite !app_length; unfold last, second, past, first; clear; lia). reflexivity.
    + rewrite M1. cbn [bind show]. rewrite M2. reflexivity.
  - intros r Irr. apply (all_alone_in _ _ _ _ _ A) in Irr as (p0 & l0 & Ip0 & X0 & Il0). apply others in Ip0 as [<-|Ip0].
    + unfold alone in X0. rewrite Et in X0. apply RelativeFacts.ret_inj in X0. subst l0. destruct (Z_lt_ge_dec (getIndex r) past) as [L|G].
      * left. assert (I : In r (filter (fun r => getIndex r <? past) lt)) by (apply filter_In; split; [exact Il0|clear - L; lia]). rewrite Ef in I. destruct I as [I|[]]; auto.
      * destruct (Bt r Il0 ltac:(clear - G; lia)) as (B1 & B2). right. right. right. rewrite Dx', Ld. fold last. clear - B1 B2. lia.
    + destruct (Al p0 Ip0) as (l1 & El1 & B1). unfold alone in X0. rewrite El1 in X0. apply RelativeFacts.ret_inj in X0. subst l1. destruct (B1 r Il0) as [(B2 & [->|B3])|(B2 & B3)].
      * right. left. rewrite Elp in El1. apply RelativeFacts.ret_inj in El1. subst l0.
        pose proof (result_text _ _ _ _ _ _ _ He (in_all p Ip') Elp Il0) as T0.
        apply (in_order_unique (Z.of_nat (List.length text)) lp); auto.
        { apply (C13_results_in_order _ _ _ _ _ _ He (in_all p Ip') Hn2 Elp). }
        { rewrite Ld. exact Lw. }
        { unfold textLength. destruct (r_text r); [congruence|cbn [List.length]; clear; lia]. }
        { rewrite Dx', Ld. fold last. exact B2. }
      * right. right. right. rewrite Dx', Ld. fold last. clear - B2 B3. lia.
      * right. right. left. rewrite Lt. clear - B2 B3 Ly Ll Lc. lia.
Qed.


Lemma day_phrase t p pre w post d : day_says t p pre w post d -> phrase_says t p pre w post (day_only_moment t w d).
Proof.
  intros Ds. unfold day_only_moment. destruct Ds as [pre post|pre post c D|pre w post c W D|pre w post n v u q c D1 D2 D3 D4|pre yy mm dd post c D1 D2 D3 D4 D5|pre kw s s1 n s2 k ws post c D1 D2 D3 D4 D5 D6 D7 D8|pre sp post D1 D2].
  - exact (ps_today t pre post).
  - exact (ps_yesterday t pre post c D).
  - replace (beq w (bs "yesterday")) with false by (destruct W as [-> | ->]; reflexivity). eapply ps_tomorrow; eassumption.
  - replace (beq w (bs "yesterday")) with false by (destruct D1 as (kw & s1 & s2 & -> & [-> | ->] & _); reflexivity). eapply ps_deadline_date; eassumption.
  - replace (beq (ymd_text yy mm dd) (bs "yesterday")) with false; [eapply ps_iso; eassumption|]. destruct D1 as (Dg & Ly & _). unfold ymd_text. destruct yy as [|a yy]; [discriminate|].
    cbn [app]. inversion Dg; subst. symmetry. change (beq (a :: (yy ++ bs "-" ++ mm ++ bs "-" ++ dd)) (bs "yesterday")) with (Ascii.eqb a "y" && beq (yy ++ bs "-" ++ mm ++ bs "-" ++ dd) (bs "esterday")).
    destruct (Ascii.eqb_spec a "y") as [->|]; [|reflexivity]. exfalso. match goal with X : is_digit _ = true |- _ => vm_compute in X; discriminate X end.
  - replace (beq (kw ++ s1 ++ n ++ s2 ++ ws) (bs "yesterday")) with false by (destruct D1 as [[-> _]|[-> _]]; reflexivity). eapply ps_week; eassumption.
  - replace (beq (bs "this" ++ sp ++ bs "week") (bs "yesterday")) with false by reflexivity. eapply ps_this_week; eassumption.
Qed.

(** C116.  The situation of C104 - a clock time, later a day, nothing else recognised - but with a connecting word ("and", "to", "through", "-", even inside another word) somewhere after the day.
    Then the program prints a range from that day at that time to what the day phrase alone means (midnight of that day; for "yesterday" the hour of the reference moment), or to the start if that is later. *)
Theorem C116_connecting_word_after_the_day : forall e sortf text t us p pre c k q mid w post d h mi, sane e -> is_sort sortf -> real_instant t us -> neighbours (mdate t) -> Z.of_nat (List.length text) < 2 ^ 31 ->
  to_lower text = pre ++ c ++ mid ++ w ++ post -> separate (pre ++ c ++ mid) post -> day_says t p (pre ++ c ++ mid) w post d -> real_date d ->
  (p = casual_date -> forall x b, post = x :: b -> is_space x = false) -> mid <> [] ->
  clock_words c k q -> clear_before pre -> clear_after q (mid ++ w ++ post) -> clock_time k h mi -> seconds_fine k -> on_clock (ck_mark k) h < 24 ->
  ~ zone_follows (mid ++ w ++ post) -> (exists v, In v connectors /\ occurs v post) -> only_time_day e text (ptime_of t us) p pre c mid w ->
  main e sortf gwords_init text (ptime_of t us) = Ret (line (bs (written (day_moment d k h mi) ++ " - " ++ written (later (day_moment d k h mi) (day_only_moment t w d)))%string)).
Proof.
  intros e sortf text t us p pre c k q mid w post d h mi He Hs H N Hn E Sp Ds Rd Nb Nm Cw Cb Ca Ct Sf H24 Nz Nc Al.
  destruct (day_parser _ _ _ _ _ _ Ds) as (Nw & Ip & _).
  assert (Rm : real_moment (day_only_moment t w d)).
  { unfold day_only_moment, real_moment. cbn [mdate mhour mmin msec]. split; [exact Rd|]. destruct H as [(_ & X & _) _]. clear - X. destruct (beq w (bs "yesterday")); lia. }
  apply (time_day_linked e sortf text t us p pre c k q mid w post d h mi); auto; [exact (day_in p Ip)|exact (plain_in p Ip)|].
  intros lp Elp. assert (Hn2 : Z.of_nat (List.length text) < 2 ^ 32) by (clear - Hn; lia).
  assert (E2 : to_lower text = (pre ++ c ++ mid) ++ w ++ post) by (rewrite E, <- !app_assoc; reflexivity).
  destruct (day_found e text t us p (pre ++ c ++ mid) w post d lp He H N Hn2 E2 Sp Ds Rd Nb Elp) as (dr & Id & Sd & De & Do & Dn).
  destruct (phrase_found e text t us p (pre ++ c ++ mid) w post _ lp He H N Hn2 E2 Sp (day_phrase _ _ _ _ _ _ Ds) Rm Elp) as (dr' & sp & Id' & Sd' & _ & _ & Dd').
  assert (Lw : (0 < List.length w)%nat) by (destruct w; [congruence|cbn; clear; lia]).
  assert (Q : dr' = dr).
  { destruct (stands_place _ _ _ Sd) as [X1 X2]. destruct (stands_place _ _ _ Sd') as [Y1 Y2]. rewrite app_length in Y2.
    apply (in_order_unique (Z.of_nat (List.length text)) lp); auto; [apply (C13_results_in_order _ _ _ _ _ _ He (in_all p (plain_in p Ip)) Hn2 Elp)|clear - X2 Lw; lia|clear - Y2 Lw; lia|clear - X1 X2 Y1 Lw; lia]. }
  subst dr'. exists dr. split; [exact Id|]. split; [exact (stands_place _ _ _ Sd)|]. repeat (split; [assumption|]). split; [exact (plain_untimed e p text _ lp dr He Ip Elp Id)|exact Dd'].
Qed.
Print Assumptions C116_connecting_word_after_the_day.


Lemma case_words_am : clock_words (bs "5:30 am") (Clock (bs "5") (bs "30") [] Am) (bs " am").
Proof.
  exists (bs ":30"). split; [reflexivity|]. split; [exists 5; apply (hs_digits (bs "5")); [repeat constructor|cbn; lia]|]. split; [apply (mp_minutes _ (bs ":") (bs "30")); [right; left; reflexivity|repeat constructor|cbn; lia]|].
  split; [cbn; lia|]. right. exists (bs " "), "am". split; [reflexivity|]. split; [repeat constructor|cbn; tauto].
Qed.
Lemma half_past_five_am : clock_time (Clock (bs "5") (bs "30") [] Am) 5 30.
Proof. split; [apply (ts_minutes (bs "5") (bs "30") 5); [apply (hs_digits (bs "5")); [repeat constructor|cbn; lia]|repeat constructor|cbn; lia]|]; cbn; lia. Qed.
Example C116_case : let t := Moment (Cal 2024 2 27) 9 15 0 in let k := Clock (bs "5") (bs "30") [] Am in let text := bs "Milk at 5:30 AM, yesterday, and cake" in
  real_instant t 3 /\ neighbours (mdate t) /\ to_lower text = bs "milk at " ++ bs "5:30 am" ++ bs ", " ++ bs "yesterday" ++ bs ", and cake" /\ separate (bs "milk at " ++ bs "5:30 am" ++ bs ", ") (bs ", and cake") /\
  day_says t casual_date (bs "milk at " ++ bs "5:30 am" ++ bs ", ") (bs "yesterday") (bs ", and cake") (Cal 2024 2 26) /\ real_date (Cal 2024 2 26) /\
  (forall x b, bs ", and cake" = x :: b -> is_space x = false) /\
  clock_words (bs "5:30 am") k (bs " am") /\ clear_before (bs "milk at ") /\ clear_after (bs " am") (bs ", " ++ bs "yesterday" ++ bs ", and cake") /\ clock_time k 5 30 /\ seconds_fine k /\
  ~ zone_follows (bs ", " ++ bs "yesterday" ++ bs ", and cake") /\ (exists v, In v connectors /\ occurs v (bs ", and cake")) /\
  only_time_day strict_env text (ptime_of t 3) casual_date (bs "milk at ") (bs "5:30 am") (bs ", ") (bs "yesterday") /\
  main strict_env sort_stable gwords_init text (ptime_of t 3) = Ret (line (bs "2024-Feb-26 05:30:00 - 2024-Feb-26 09:00:00")).
Proof.
  cbv zeta. split; [inst|]. split; [exists (Cal 2024 2 26), (Cal 2024 2 28); inst|]. split; [reflexivity|]. split; [apply separate_dec; reflexivity|]. split.
  { apply dy_yesterday. concrete. }
  split; [inst|]. split; [intros x b E; injection E as <- _; reflexivity|]. split; [exact case_words_am|].
  split; [apply (clear_letter (bs "milk a") "t"%char (bs " ")); [repeat constructor|discriminate|reflexivity|cbn; intuition discriminate]|].
  split; [apply (clear_sign (bs " am") ","%char (bs " yesterday, and cake")); [discriminate|reflexivity|reflexivity|cbn; intuition discriminate]|].
  split; [exact half_past_five_am|]. split; [left; reflexivity|]. split; [apply no_zone_comma|].
  split; [exists (bs "and"); split; [cbn; tauto|exists (bs ", "), (bs " cake"); reflexivity]|].
  split; [apply time_day_only_ok; [exact same_casual|vm_compute; reflexivity]|vm_compute; reflexivity].
Qed.
