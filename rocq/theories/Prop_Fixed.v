(** * A day that carries its own hour beside a clock time: only the first of the two is answered (C113, C114) *)
From Verif Require Import Base Regex RegexParse Calendar Components Utils Execute Spec View ParserSpec PhraseSpec ClockSpec ClockTextSpec CalendarCycle CalendarFacts RegexFacts ResultFacts
  ExecuteFacts ParserRe MatchFacts LocateFacts HistoryFacts ParserFacts CasualFacts ISOFacts ISOShape HolidayFacts ZoneFacts MergeFacts ClockFacts FoundFacts OverlapFacts P_CasualDate P_ISO P_Holiday P_TimeExpression Prop_Casual Prop_ISO Prop_Holiday Prop_Found Refiners Main Prop_Execute Prop_Refine Prop_Tags
  Prop_Days MainFacts Prop_Main Prop_Answers Prop_Format Prop_Sentence Prop_ClockText Prop_ClockAnswer Prop_DateTime Prop_Range Prop_TimeDay Prop_Tomorrow.
From Coq Require Import ZifyBool ZifyNat ZifyN.
Open Scope string_scope.
Open Scope list_scope.
Open Scope Z_scope.

(** ** Two results that both have a certain hour are not merged *)
Lemma mdt_hours text a b : is_certain Hour (r_start a) = true -> is_certain Hour (r_start b) = true -> isEmpty b = false -> mdt_refine [a; b] text = Ret [res_copy a; res_copy b].
Proof.
  intros Ma Mb Nb. unfold mdt_refine. cbn [map mdt_loop]. unfold mdt_pair.
  assert (Ta : isDateOnly (res_copy a) = false) by (unfold isDateOnly; rewrite hour_cert; cbn [res_copy r_start]; rewrite Ma; reflexivity).
  assert (Tb : isDateOnly (res_copy b) = false) by (unfold isDateOnly; rewrite hour_cert; cbn [res_copy r_start]; rewrite Mb; reflexivity).
  rewrite Ta, Tb. cbn [andb bind]. rewrite isEmpty_copy, Nb. reflexivity.
Qed.
Lemma refined_hours text a b ta : no_zone text a -> no_zone text b -> res_copy a = a -> res_copy b = b ->
  is_certain Hour (r_start a) = true -> is_certain Hour (r_start b) = true -> has_end a = false -> denotes (r_start a) ta -> real_moment ta -> tag_is TExtractTZ a = false ->
  MergeFacts.solid text a -> MergeFacts.solid text b -> Z.of_nat (List.length text) < 2 ^ 31 -> (forall w, In w connectors -> ~ occurs w (between text a b)) ->
  exists m rest, (rs <- tz_refine [a; b] text ;; rs <- mdt_refine rs text ;; mdr_refine rs text) = Ret (m :: rest) /\ toDate m = Ret (bs (written ta)).
Proof.
  intros Za Zb Ca Cb Ma Mb Ea Da Ra Ta Sa Sb L Cn. rewrite tz_refine_total. cbn [bind map]. rewrite Ca, Cb.
  pose proof (proj1 (tz_one_spec text a) Za) as S1. pose proof (proj1 (tz_one_spec text b) Zb) as S2. cbv zeta in S1, S2.
  set (a' := res_copy (tz_one tz_re text a)) in *. set (b' := res_copy (tz_one tz_re text b)) in *.
  destruct (same_stops _ _ S1) as (P1 & P2 & P3). destruct (same_stops _ _ S2) as (Q1 & Q2 & Q3).
  destruct S1 as (_ & _ & _ & V1 & H1 & _ & G1). destruct S2 as (_ & _ & _ & V2 & _).
  assert (Nb : isEmpty b' = false). { destruct Sb as (_ & Sb & _). apply filled_nonempty. intros E. unfold textLength in Q3, Sb. rewrite E in Q3. cbn [List.length] in Q3. clear - Q3 Sb. lia. }
  rewrite (mdt_hours text a' b'); [|rewrite V1; exact Ma|rewrite V2; exact Mb|exact Nb]. cbn [bind].
  rewrite (mdr_unlinked text (res_copy a') (res_copy b')); [| | |exact L|].
  - exists (res_copy (res_copy a')), [res_copy (res_copy a')]. split; [reflexivity|]. rewrite !(toDate_same _ _ (same_copy _)). apply toDate_start; auto; [rewrite V1; exact Da| |rewrite H1; exact Ea]. rewrite G1. exact Ta.
  - unfold MergeFacts.solid. change (starts (res_copy a')) with (starts a'). change (stops (res_copy a')) with (stops a'). change (textLength (res_copy a')) with (textLength a'). rewrite P1, P2, P3. exact Sa.
  - unfold MergeFacts.solid. change (starts (res_copy b')) with (starts b'). change (stops (res_copy b')) with (stops b'). change (textLength (res_copy b')) with (textLength b'). rewrite Q1, Q2, Q3. exact Sb.
  - intros (_ & _ & w & Iw & O). apply (Cn w Iw). unfold between in *. change (starts (res_copy b')) with (starts b') in O. change (stops (res_copy a')) with (stops a') in O. rewrite P1, Q2 in O. exact O.
Qed.

(** ** Phrases that name a day and a certain hour *)
Inductive fixed_says (t : moment) : parser -> bytes -> bytes -> bytes -> moment -> Prop :=
| fx_now pre post : fixed_says t casual_date pre (bs "now") post t
| fx_iso_time pre yy mm dd k post c : date_loose yy mm dd -> two mm -> two dd -> clock_ok k -> decimal yy = cy c -> decimal mm = cm c -> decimal dd = cd c ->
    (forall a x, pre = a ++ [x] -> ~ In x (bs ":.+-")) -> (forall x b, post = x :: b -> ~ In x (bs ":.+-")) ->
    fixed_says t iso pre (ymd_text yy mm dd ++ clock_text k) post (Moment c (decimal (ic_h k)) (decimal (ic_m k)) (match ic_s k with None => 0 | Some (ss, _) => decimal ss end))
| fx_holiday pre x r sp post c : In (x, r) plain_names -> blanks sp -> sp <> [] -> falls_on r (cy (mdate t)) c -> fixed_says t holiday pre (bs x ++ sp ++ bs "day") post (Moment c 0 0 0).
Lemma fixed_phrase t p pre w post m : fixed_says t p pre w post m -> phrase_says t p pre w post m.
Proof. intros F. destruct F; [constructor|constructor; assumption|econstructor; eassumption]. Qed.
Lemma certain_is f v p : certain f v p -> is_certain f p = true. Proof. intros [A _]. exact A. Qed.
Lemma fixed_found e text t us p pre w post mo l : sane e -> real_instant t us -> neighbours (mdate t) -> Z.of_nat (List.length text) < 2 ^ 32 ->
  to_lower text = pre ++ w ++ post -> separate pre post -> fixed_says t p pre w post mo -> real_moment mo -> alone e p text (ptime_of t us) = Ret l ->
  exists res, In res l /\ stands res pre w /\ has_end res = false /\ denotes (r_start res) mo /\ is_certain Hour (r_start res) = true.
Proof.
  intros He H N Hn E Sp Ps Rm El. destruct Ps as [pre post|pre yy mm dd k post c D1 D2 D3 D4 D5 D6 D7 D8 D9|pre x r sp post c D1 D2 D3 D4].
  - destruct (C85_casual_dates_stand e gwords_init text t us pre (bs "now") post He H N Hn ltac:(left; cbn; tauto) E Sp) as (rs & res & sp & X & I & St & B).
    unfold alone in El. rewrite X in El. apply RelativeFacts.ret_inj in El. subst l. destruct (C18_casual_dates e gwords_init text t us rs res He H X I) as (En & U & M).
    exists res. split; [exact I|]. rewrite (proj2 St) in M.
    destruct M as [(Ew & Dc & Hh & Hm & Hs)|[(X0 & _)|[(X0 & _)|[(s & c & X0 & _)|[(s & c & X0 & _)|(s & c & [X0|X0] & _)]]]]]; try (cbn in X0; discriminate X0).
    rewrite Ew in St. split; [exact St|]. split; [exact En|]. split; [|exact (certain_is _ _ _ Hh)]. destruct t as [d h mi s]. apply denotes_certain; [exact Dc|..]; eauto using certain_value.
  - pose proof (proj1 (proj1 Rm)) as V. unfold valid in V. cbn [mdate] in V.
    assert (B1 : 1 <= decimal mm <= 12) by (rewrite D6; lia). assert (B2 : 1 <= decimal dd <= 31) by (rewrite D7; pose proof (month_len_bounds (cy c) (cm c)); lia).
    destruct (C87_iso_stand e gwords_init text (ptime_of t us) pre yy mm dd (Some k) post l He Hn D1 B1 B2 (conj D2 (conj D3 (conj D4 D9)))) as (res & Ir & St & En & Dc & _ & Hh & Hm & Hs & _); auto.
    exists res. split; [exact Ir|]. split; [exact St|]. split; [exact En|]. split; [|exact (certain_is _ _ _ Hh)].
    rewrite D5, D6, D7 in Dc. destruct c as [y m d]. apply denotes_certain; [exact Dc|exact (certain_value _ _ _ Hh)|exact (certain_value _ _ _ Hm)|]. destruct (ic_s k) as [[ss fr]|]; [exact (certain_value _ _ _ Hs)|apply Hs].
  - destruct (C88_holidays_stand e gwords_init text t us pre x r sp post l He H Hn D1 D2 D3 E Sp El) as (res & I & St & En & c' & Rc & F & D & _ & Dh & Dm & U).
    exists res. split; [exact I|]. split; [exact St|]. split; [exact En|]. split; [|exact (certain_is _ _ _ Dh)]. rewrite (falls_on_fun _ _ _ _ D4 F). apply day_denotes; assumption.
Qed.

(** C113.  A text contains "now", an ISO date with a time, or a holiday, and later a clock time [c] standing clear as in C93, no zone abbreviation after the time, no connecting word between the two,
    and nothing else is recognised.  Then the program prints the moment of the first phrase - a holiday at midnight -; the clock time is ignored. *)
Theorem C113_own_hour_stays : forall e sortf text t us p pre w mid c k q post m1 h mi, sane e -> is_sort sortf -> real_instant t us -> neighbours (mdate t) -> Z.of_nat (List.length text) < 2 ^ 31 ->
  to_lower text = pre ++ w ++ mid ++ c ++ post -> separate pre (mid ++ c ++ post) -> fixed_says t p pre w (mid ++ c ++ post) m1 -> real_moment m1 ->
  clock_words c k q -> clear_before (pre ++ w ++ mid) -> clear_after q post -> clock_time k h mi -> seconds_fine k ->
  ~ zone_follows post -> (forall v, In v connectors -> ~ occurs v mid) -> only_pair e text (ptime_of t us) p pre w mid c ->
  main e sortf gwords_init text (ptime_of t us) = Ret (line (bs (written m1))).
Proof.
  intros e sortf text t us p pre w mid c k q post m1 h mi He Hs H N Hn E Sp Fx Rm Cw Cb Ca Ct Sf Nz Nc [(lt & rt & Et & Ef & Bt) Al].
  destruct (says_parser _ _ _ _ _ _ (fixed_phrase _ _ _ _ _ _ Fx)) as (Nw & Ip). pose proof (day_in p Ip) as Jp. pose proof (plain_in p Ip) as Ip'.
  assert (Nm : mid <> []). { intros ->. destruct (words_start _ _ _ Cw) as (c0 & c' & Ec & Hc0). destruct Sp as [_ Sp]. cbn [app] in Sp. rewrite Ec in Sp. specialize (Sp c0 (c' ++ post) eq_refl). congruence. }
  assert (Hn2 : Z.of_nat (List.length text) < 2 ^ 32) by (clear - Hn; lia).
  destruct (words_start _ _ _ Cw) as (c0 & c' & Ec & Hc0).
  assert (Lm : (1 <= List.length mid)%nat) by (destruct mid; [congruence|cbn [List.length]; clear; lia]).
  assert (Lc : (1 <= List.length c)%nat) by (rewrite Ec; cbn [List.length]; clear; lia).
  assert (E2 : to_lower text = (pre ++ w ++ mid) ++ c ++ post) by (rewrite E, <- !app_assoc; reflexivity).
  destruct (clock_stands e gwords_init text t us lt (pre ++ w ++ mid) c k q post h mi He H Hn2 E2 Cw Cb Ca Ct Sf Et)
    as (res & y & lead & intro & gap & rest & It & Ey & Hl & Op & Ep & Hg & Ix & Tx & En & At & T1 & T2).
  assert (Ly : Z.of_nat (List.length pre) + Z.of_nat (List.length w) + Z.of_nat (List.length mid) = getIndex res + Z.of_nat (List.length lead) + Z.of_nat (List.length intro)).
  { rewrite Ix. apply (f_equal (@List.length ascii)) in Ey. rewrite !app_length in Ey. clear - Ey. lia. }
  assert (Ll : Z.of_nat (List.length lead) <= 1) by (destruct Hl as [->|(x & -> & _)]; cbn [List.length]; clear; lia).
  assert (Lt : textLength res = Z.of_nat (List.length intro) + Z.of_nat (List.length c) + Z.of_nat (List.length gap)) by (unfold textLength; rewrite Tx, !app_length; clear; lia).
  set (first := Z.of_nat (List.length pre)) in *. set (past := first + Z.of_nat (List.length w)) in *. set (second := past + Z.of_nat (List.length mid)) in *.
  assert (Late : past <= getIndex res).
  { destruct (Z_lt_ge_dec (getIndex res) past) as [L|G]; [|clear - G; lia]. destruct (Bt res It L) as (_ & B & _). clear - B Lt Ly Ll Lm Lc. lia. }
  assert (Er : rt = res). { assert (I : In res (filter (fun r => past <=? getIndex r) lt)) by (apply filter_In; split; [exact It|clear - Late; lia]). rewrite Ef in I. destruct I as [I|[]]; exact I. }
  subst rt.
  destruct (Al p Jp) as (lp & Elp & Blp).
  destruct (fixed_found e text t us p pre w _ m1 lp He H N Hn2 E Sp Fx Rm Elp) as (dr & Id & Sd & De & Do & Dh).
  destruct (stands_place _ _ _ Sd) as [Dx Ld]. pose proof (plain_untimed e p text _ lp dr He Ip Elp Id) as Dut.
  assert (Lw : 0 < Z.of_nat (List.length w)) by (destruct w; [congruence|cbn [List.length]; clear; lia]).
  assert (A : exists rs, all_alone e parsers text (ptime_of t us) = Ret rs).
  { assert (Q : exists rss, Forall2 (fun p l => alone e p text (ptime_of t us) = Ret l) parsers rss).
    { assert (Al' : forall p, In p parsers -> exists l, alone e p text (ptime_of t us) = Ret l).
      { intros q0 Iq. apply others in Iq as [<-|Iq]; [eexists; exact Et|]. destruct (Al q0 Iq) as (l & El & _). eexists; exact El. }
      revert Al'. clear. generalize parsers as ps. induction ps as [|p ps IH]; intros Al; [exists []; constructor|]. destruct (Al p (or_introl eq_refl)) as (l & El).
      destruct IH as [rss F]; [intros q' I'; apply Al; right; exact I'|]. exists (l :: rss). constructor; assumption. }
    destruct Q as [rss F]. exists (List.concat rss). apply all_alone_ret. eauto. }
  destruct A as [rs A]. assert (It' : In time_expression parsers) by (cbn; tauto).
  assert (Ir : In res rs) by (apply (all_alone_in _ _ _ _ _ A); exists time_expression, lt; split; [exact It'|split; [exact Et|exact It]]).
  assert (Idr : In dr rs) by (apply (all_alone_in _ _ _ _ _ A); exists p, lp; split; [exact Ip'|split; [exact Elp|exact Id]]).
  assert (Apart : getIndex dr + textLength dr <= getIndex res) by (rewrite Dx, Ld; fold first; clear - Late; lia).
  rewrite (main_two e sortf text (ptime_of t us) rs dr res He Hs A Idr Ir Apart).
  - assert (Cp : forall x, In x rs -> res_copy x = x).
    { intros x Ixx. apply (all_alone_in _ _ _ _ _ A) in Ixx as (p0 & l & Ip0 & Xp & Il). pose proof (execute_copies _ _ _ _ _ _ Xp) as E0.
      clear - E0 Il. induction l as [|y l IH]; [contradiction|]. cbn [map] in E0. injection E0 as E1 E2. destruct Il as [<-|Il]; auto. }
    assert (Sl : stops res <= Z.of_nat (List.length (to_lower text))).
    { pose proof (C13_results_in_order _ _ _ _ _ _ He (in_all _ It') Hn2 Et) as O. assert (Lo : List.length (to_lower text) = List.length text) by (unfold to_lower; apply map_length). rewrite Lo.
      clear - O It. unfold stops. induction O as [|x l H1 H2 H3 O IH]; [contradiction|]. destruct It as [<-|It]; [exact H2|exact (IH It)]. }
    assert (Lo : List.length (to_lower text) = List.length text) by (unfold to_lower; apply map_length).
    destruct (refined_hours (to_lower text) dr res m1) as (m & ms & M1 & M2); auto.
    + apply untimed_no_zone. exact Dut.
    + apply (clock_no_zone (to_lower text) y lead intro c k q gap post rest); auto; [rewrite E2, Ey; reflexivity|apply Ca].
    + destruct At as (A1 & _). apply A1.
    + apply (C73_no_refiner_tag e p gwords_init text (ptime_of t us) lp dr TExtractTZ He (in_all _ Ip') Elp Id). left. reflexivity.
    + unfold MergeFacts.solid, OverlapFacts.starts, stops in *. rewrite Lo in *. rewrite Dx, Ld. clear - Lw Late Sl Lt Lc Dx. unfold past, first in *. lia.
    + unfold MergeFacts.solid. split; [unfold OverlapFacts.starts; rewrite Ix; clear; lia|]. split; [rewrite Lt; clear - Lc; lia|]. exact Sl.
    + rewrite Lo. exact Hn.
    + intros v Iv O. apply (Nc v Iv). revert O. unfold between, stops, OverlapFacts.starts. replace (getIndex dr + textLength dr <=? getIndex res) with true by (clear - Apart; lia).
      replace (Z.to_nat (getIndex dr + textLength dr)) with (List.length (pre ++ w) + 0)%nat by (rewrite !app_length, Dx, Ld; clear; lia).
      replace (to_lower text) with ((pre ++ w) ++ mid ++ c ++ post) by (rewrite E, <- !app_assoc; reflexivity). rewrite skip_tail. cbn [skipn].
      set (n := Z.to_nat (getIndex res - (getIndex dr + textLength dr))).
      assert (Ln : (n <= List.length mid)%nat) by (unfold n; clear - Ly Dx Ld; unfold past, first in *; lia).
      rewrite firstn_app. replace (n - List.length mid)%nat with 0%nat by (clear - Ln; lia). rewrite firstn_O, app_nil_r.
      intros (p0 & q0 & Ep0). exists p0, (q0 ++ skipn n mid). rewrite <- (firstn_skipn n mid) at 1. rewrite Ep0, <- !app_assoc. reflexivity.
    + rewrite M1. cbn [bind show]. rewrite M2. reflexivity.
  - intros r Irr. apply (all_alone_in _ _ _ _ _ A) in Irr as (p0 & l0 & Ip0 & X0 & Il0). apply others in Ip0 as [<-|Ip0].
    + unfold alone in X0. rewrite Et in X0. apply RelativeFacts.ret_inj in X0. subst l0. destruct (Z_lt_ge_dec (getIndex r) past) as [L|G].
      * destruct (Bt r Il0 L) as (B1 & B2 & B3). right. right. left. rewrite Dx, Ld. fold first. clear - B1 B2 B3 L Lw. lia.
      * right. left. assert (I : In r (filter (fun r => past <=? getIndex r) lt)) by (apply filter_In; split; [exact Il0|clear - G; lia]). rewrite Ef in I. destruct I as [I|[]]; auto.
    + destruct (Al p0 Ip0) as (l1 & El1 & B1). unfold alone in X0. rewrite El1 in X0. apply RelativeFacts.ret_inj in X0. subst l1. destruct (B1 r Il0) as [(B2 & [->|B3])|(B2 & B3)].
      * left. rewrite Elp in El1. apply RelativeFacts.ret_inj in El1. subst l0.
        pose proof (result_text _ _ _ _ _ _ _ He (in_all p Ip') Elp Il0) as T0.
        apply (in_order_unique (Z.of_nat (List.length text)) lp); auto.
        { apply (C13_results_in_order _ _ _ _ _ _ He (in_all p Ip') Hn2 Elp). }
        { rewrite Ld. exact Lw. }
        { unfold textLength. destruct (r_text r); [congruence|cbn [List.length]; clear; lia]. }
        { rewrite Dx, Ld. fold first. clear - B2. lia. }
      * right. right. left. rewrite Dx, Ld. fold first. clear - B2 B3. lia.
      * right. right. right. rewrite Lt. clear - B2 B3 Ly Ll Lc. lia.
Qed.
Print Assumptions C113_own_hour_stays.

Lemma app_eq_length_head {A} (a b c d : list A) : a ++ b = c ++ d -> List.length a = List.length c -> a = c /\ b = d.
Proof. revert c. induction a as [|x a IH]; intros [|y c] E L; cbn in *; try discriminate; [auto|]. injection E as -> E. injection L as L. destruct (IH _ E L) as [-> ->]. auto. Qed.
(** C114.  In the other order - first the clock time, later "now", an ISO date with a time, or a holiday - the program prints the reference date at the clock time; the day is ignored. *)
Theorem C114_clock_stays : forall e sortf text t us p pre c k q mid w post m2 h mi, sane e -> is_sort sortf -> real_instant t us -> neighbours (mdate t) -> Z.of_nat (List.length text) < 2 ^ 31 ->
  to_lower text = pre ++ c ++ mid ++ w ++ post -> separate (pre ++ c ++ mid) post -> fixed_says t p (pre ++ c ++ mid) w post m2 -> real_moment m2 -> mid <> [] ->
  clock_words c k q -> clear_before pre -> clear_after q (mid ++ w ++ post) -> clock_time k h mi -> seconds_fine k -> on_clock (ck_mark k) h < 24 ->
  ~ zone_follows (mid ++ w ++ post) -> (forall v, In v connectors -> ~ occurs v mid) -> only_time_day e text (ptime_of t us) p pre c mid w ->
  main e sortf gwords_init text (ptime_of t us) = Ret (line (bs (written (clock_moment t k h mi)))).
Proof.
  intros e sortf text t us p pre c k q mid w post m2 h mi He Hs H N Hn E Sp Fx Rm Nm Cw Cb Ca Ct Sf H24 Nz Nc [(lt & rt & Et & Ef & Bt) Al].
  destruct (says_parser _ _ _ _ _ _ (fixed_phrase _ _ _ _ _ _ Fx)) as (Nw & Ip). pose proof (day_in p Ip) as Jp. pose proof (plain_in p Ip) as Ip'.
  assert (E2 : to_lower text = (pre ++ c ++ mid) ++ w ++ post) by (rewrite E, <- !app_assoc; reflexivity).
  assert (Hn2 : Z.of_nat (List.length text) < 2 ^ 32) by (clear - Hn; lia).
  destruct (words_start _ _ _ Cw) as (c0 & c' & Ec & Hc0).
  assert (Lm : (1 <= List.length mid)%nat) by (destruct mid; [congruence|cbn [List.length]; clear; lia]).
  assert (Lc : (1 <= List.length c)%nat) by (rewrite Ec; cbn [List.length]; clear; lia).
  destruct (clock_stands e gwords_init text t us lt pre c k q (mid ++ w ++ post) h mi He H Hn2 E Cw Cb Ca Ct Sf Et)
    as (res & y & lead & intro & gap & rest & It & Ey & Hl & Op & Ep & Hg & Ix & Tx & En & At & T1 & T2).
  assert (Hgap : gap = [] \/ gap = bs " ") by (rewrite Hg; destruct (mid ++ w ++ post) as [|b0 post0]; [auto|]; cbn; destruct (Ascii.eqb b0 " "); auto).
  assert (Lg : Z.of_nat (List.length gap) <= 1) by (destruct Hgap as [-> | ->]; cbn [List.length]; clear; vm_compute; discriminate).
  assert (Ly : Z.of_nat (List.length pre) = getIndex res + Z.of_nat (List.length lead) + Z.of_nat (List.length intro)).
  { rewrite Ix. apply (f_equal (@List.length ascii)) in Ey. rewrite !app_length in Ey. clear - Ey. lia. }
  assert (Ll : Z.of_nat (List.length lead) <= 1) by (destruct Hl as [->|(x & -> & _)]; cbn [List.length]; clear; lia).
  assert (Lt : textLength res = Z.of_nat (List.length intro) + Z.of_nat (List.length c) + Z.of_nat (List.length gap)) by (unfold textLength; rewrite Tx, !app_length; clear; lia).
  set (first := Z.of_nat (List.length pre)) in *. set (past := first + Z.of_nat (List.length c)) in *. set (second := past + Z.of_nat (List.length mid)) in *. set (last := second + Z.of_nat (List.length w)) in *.
  assert (Early : getIndex res < past) by (clear - Ly Lc; lia).
  assert (Er : rt = res). { assert (I : In res (filter (fun r => getIndex r <? past) lt)) by (apply filter_In; split; [exact It|clear - Early; lia]). rewrite Ef in I. destruct I as [I|[]]; exact I. }
  subst rt.
  destruct (Al p Jp) as (lp & Elp & Blp).
  destruct (fixed_found e text t us p (pre ++ c ++ mid) w _ m2 lp He H N Hn2 E2 Sp Fx Rm Elp) as (dr & Id & Sd & De & Do & Dh).
  destruct (stands_place _ _ _ Sd) as [Dx Ld]. pose proof (plain_untimed e p text _ lp dr He Ip Elp Id) as Dut.
  assert (Dx' : getIndex dr = second) by (rewrite Dx, !app_length; unfold second, past, first; clear; lia).
  assert (Lw : 0 < Z.of_nat (List.length w)) by (destruct w; [congruence|cbn [List.length]; clear; lia]).
  assert (A : exists rs, all_alone e parsers text (ptime_of t us) = Ret rs).
  { assert (Q : exists rss, Forall2 (fun p l => alone e p text (ptime_of t us) = Ret l) parsers rss).
    { assert (Al' : forall p, In p parsers -> exists l, alone e p text (ptime_of t us) = Ret l).
      { intros q0 Iq. apply others in Iq as [<-|Iq]; [eexists; exact Et|]. destruct (Al q0 Iq) as (l & El & _). eexists; exact El. }
      revert Al'. clear. generalize parsers as ps. induction ps as [|p ps IH]; intros Al; [exists []; constructor|]. destruct (Al p (or_introl eq_refl)) as (l & El).
      destruct IH as [rss F]; [intros q' I'; apply Al; right; exact I'|]. exists (l :: rss). constructor; assumption. }
    destruct Q as [rss F]. exists (List.concat rss). apply all_alone_ret. eauto. }
  destruct A as [rs A]. assert (It' : In time_expression parsers) by (cbn; tauto).
  assert (Ir : In res rs) by (apply (all_alone_in _ _ _ _ _ A); exists time_expression, lt; split; [exact It'|split; [exact Et|exact It]]).
  assert (Idr : In dr rs) by (apply (all_alone_in _ _ _ _ _ A); exists p, lp; split; [exact Ip'|split; [exact Elp|exact Id]]).
  assert (Apart : getIndex res + textLength res <= getIndex dr) by (rewrite Dx', Lt; clear - Ly Lm Ll Lg; lia).
  rewrite (main_two e sortf text (ptime_of t us) rs res dr He Hs A Ir Idr Apart).
  - assert (Cp : forall x, In x rs -> res_copy x = x).
    { intros x Ixx. apply (all_alone_in _ _ _ _ _ A) in Ixx as (p0 & l & Ip0 & Xp & Il). pose proof (execute_copies _ _ _ _ _ _ Xp) as E0.
      clear - E0 Il. induction l as [|y l IH]; [contradiction|]. cbn [map] in E0. injection E0 as E1 E2. destruct Il as [<-|Il]; auto. }
    assert (Lo : List.length (to_lower text) = List.length text) by (unfold to_lower; apply map_length).
    assert (Sl : stops dr = last) by (unfold stops; rewrite Dx', Ld; reflexivity).
    assert (Ln : Z.of_nat (List.length (to_lower text)) = last + Z.of_nat (List.length post)) by (rewrite E, !app_length; unfold last, second, past, first; clear; lia).
    pose proof (rest_after (to_lower text) y lead intro c k q gap (mid ++ w ++ post) rest res) as Ra. rewrite E, Ey in Ra. specialize (Ra eq_refl Hl Ep Hgap Cw Ix Tx). rewrite <- Ey, <- E in Ra. cbv zeta in Ra.
    destruct (refined_hours (to_lower text) res dr (clock_moment t k h mi)) as (m & ms & M1 & M2); auto.
    + apply (clock_no_zone (to_lower text) y lead intro c k q gap (mid ++ w ++ post) rest); auto; [rewrite E, Ey; reflexivity|apply Ca].
    + apply untimed_no_zone. exact Dut.
    + destruct At as (A1 & _). apply A1.
    + apply at_time_denotes; assumption.
    + eapply clock_real; eassumption.
    + apply (C73_no_refiner_tag e time_expression gwords_init text (ptime_of t us) lt res TExtractTZ He (in_all _ It') Et It). left. reflexivity.
    + unfold MergeFacts.solid. split; [unfold OverlapFacts.starts; rewrite Ix; clear; lia|]. split; [rewrite Lt; clear - Lc; lia|]. unfold stops. rewrite Ln. clear - Apart Dx' Lw. unfold last. lia.
    + unfold MergeFacts.solid. split; [unfold OverlapFacts.starts; rewrite Dx'; unfold second, past, first; clear; lia|]. split; [rewrite Ld; exact Lw|]. rewrite Sl, Ln. clear. lia.
    + rewrite Lo. exact Hn.
    + assert (Bw : between (to_lower text) res dr = firstn (Z.to_nat (second - stops res)) (skipn (Z.to_nat (stops res)) (to_lower text))).
      { unfold between, OverlapFacts.starts. rewrite Dx' in *. replace (stops res <=? second) with true by (clear - Apart; unfold stops; lia). reflexivity. }
      intros v Iv O. rewrite Bw in O. destruct Ra as [(g & Eg)|(d0 & Hd & Eu)].
      * assert (Lg' : stops res = past + Z.of_nat (List.length g)).
        { apply (f_equal (@List.length ascii)) in Eg. rewrite !app_length, skipn_length in Eg. rewrite Lo in Eg. rewrite E, !app_length in Lo.
          assert (0 <= stops res <= last + Z.of_nat (List.length post)) by (unfold stops; clear - Apart Dx' Lw Ix Lt; unfold last; lia). unfold last, second, past, first in *. clear - Eg Lo H0. lia. }
        assert (Lgm : (List.length g <= List.length mid)%nat) by (clear - Lg' Apart Dx'; unfold stops, second in *; lia).
        assert (Es : skipn (Z.to_nat (stops res)) (to_lower text) = skipn (List.length g) mid ++ w ++ post).
        { assert (Eg2 : mid ++ w ++ post = (firstn (List.length g) mid) ++ skipn (List.length g) mid ++ w ++ post) by (rewrite <- (firstn_skipn (List.length g) mid) at 1; rewrite <- app_assoc; reflexivity).
          rewrite Eg in Eg2 at 1. apply app_eq_length_head in Eg2 as [_ Q]; [exact Q|]. rewrite firstn_length. clear - Lgm. lia. }
        rewrite Es in O. replace (Z.to_nat (second - stops res)) with (List.length (skipn (List.length g) mid) + 0)%nat in O by (rewrite skipn_length; clear - Lg' Lgm; unfold second in *; lia).
        rewrite firstn_app_2, firstn_O, app_nil_r in O. destruct O as (p0 & q0 & Ep0). apply (Nc v Iv). exists (firstn (List.length g) mid ++ p0), q0. rewrite <- (firstn_skipn (List.length g) mid) at 1. rewrite Ep0, <- !app_assoc. reflexivity.
      * assert (Ls : stops res = past - 1).
        { apply (f_equal (@List.length ascii)) in Eu. rewrite skipn_length in Eu. cbn [List.length] in Eu. rewrite !app_length in Eu. rewrite E, !app_length in Eu.
          assert (0 <= stops res) by (unfold stops; rewrite Ix, Lt; clear; lia). unfold past, first in *. clear - Eu H0. lia. }
        rewrite Eu in O. replace (Z.to_nat (second - stops res)) with (S (List.length mid + 0))%nat in O by (clear - Ls; unfold second in *; lia). cbn [firstn] in O. rewrite firstn_app_2, firstn_O, app_nil_r in O.
        refine (no_connector_end d0 mid Hd _ Nc v Iv O). destruct Ca as [Cs _]. clear - Nm Cs. destruct mid as [|b0 mid]; [congruence|]. destruct Cs as (C1 & C2 & C3). split; [exact C1|]. split; [exact C2|]. intros Hb d1 r1 ->. exact (C3 Hb d1 (r1 ++ w ++ post) eq_refl).
    + rewrite M1. cbn [bind show]. rewrite M2. reflexivity.
  - intros r Irr. apply (all_alone_in _ _ _ _ _ A) in Irr as (p0 & l0 & Ip0 & X0 & Il0). apply others in Ip0 as [<-|Ip0].
    + unfold alone in X0. rewrite Et in X0. apply RelativeFacts.ret_inj in X0. subst l0. destruct (Z_lt_ge_dec (getIndex r) past) as [L|G].
      * left. assert (I : In r (filter (fun r => getIndex r <? past) lt)) by (apply filter_In; split; [exact Il0|clear - L; lia]). rewrite Ef in I. destruct I as [I|[]]; auto.
      * destruct (Bt r Il0 ltac:(clear - G; lia)) as (B1 & B2). right. right. right. rewrite Dx', Ld. fold last. clear - B1 B2. lia.
    + destruct (Al p0 Ip0) as (l1 & El1 & B1). unfold alone in X0. rewrite El1 in X0. apply RelativeFacts.ret_inj in X0. subst l1. destruct (B1 r Il0) as [(B2 & [->|B3])|(B2 & B3)].
      * right. left. rewrite Elp in El1. apply RelativeFacts.ret_inj in El1. subst l0.
        pose proof (result_text _ _ _ _ _ _ _ He (in_all p Ip') Elp Il0) as T0.
        apply (in_order_unique (Z.of_nat (List.length text)) lp); auto.
        { apply (C13_results_in_order _ _ _ _ _ _ He (in_all p Ip') Hn2 Elp). }
        { rewrite Ld. exact Lw. }
        { unfold textLength. destruct (r_text r); [congruence|cbn [List.length]; clear; lia]. }
        { rewrite Dx', Ld. fold last. exact B2. }
      * right. right. right. rewrite Dx', Ld. fold last. clear - B2 B3. lia.
      * right. right. left. rewrite Lt. clear - B2 B3 Ly Ll Lc. lia.
Qed.
Print Assumptions C114_clock_stays.

Lemma same_holiday q : In q other_parsers -> beq (p_pattern q) (p_pattern holiday) = true -> q = holiday.
Proof. intros I E. cbn in I. repeat (destruct I as [<-|I]; [first [reflexivity|vm_compute in E; discriminate E]|]). contradiction. Qed.
Lemma no_connectors s : forallb (fun v => negb (Alphabet.containsb v s)) connectors = true -> forall v, In v connectors -> ~ occurs v s.
Proof. intros H v Iv. rewrite forallb_forall in H. specialize (H v Iv). apply Alphabet.containsb_ok. destruct (Alphabet.containsb v s); [discriminate|reflexivity]. Qed.
Lemma labor_2024 : falls_on (NthDay 1 1 9) 2024 (Cal 2024 9 2).
Proof. split; [reflexivity|]. split; [reflexivity|]. unfold nth_weekday. concrete. Qed.
Example C113_case : let t := Moment (Cal 2024 2 27) 9 15 0 in let k := Clock (bs "5") (bs "30") [] Pm in let text := bs "See you on Labor Day at 5:30 PM, ok" in
  real_instant t 3 /\ neighbours (mdate t) /\ to_lower text = bs "see you on " ++ (bs "labor" ++ bs " " ++ bs "day") ++ bs " at " ++ bs "5:30 pm" ++ bs ", ok" /\
  separate (bs "see you on ") (bs " at " ++ bs "5:30 pm" ++ bs ", ok") /\ fixed_says t holiday (bs "see you on ") (bs "labor" ++ bs " " ++ bs "day") (bs " at " ++ bs "5:30 pm" ++ bs ", ok") (Moment (Cal 2024 9 2) 0 0 0) /\
  real_moment (Moment (Cal 2024 9 2) 0 0 0) /\ clock_words (bs "5:30 pm") k (bs " pm") /\ clear_before (bs "see you on " ++ (bs "labor" ++ bs " " ++ bs "day") ++ bs " at ") /\ clear_after (bs " pm") (bs ", ok") /\ clock_time k 5 30 /\ seconds_fine k /\
  ~ zone_follows (bs ", ok") /\ (forall v, In v connectors -> ~ occurs v (bs " at ")) /\
  only_pair strict_env text (ptime_of t 3) holiday (bs "see you on ") (bs "labor" ++ bs " " ++ bs "day") (bs " at ") (bs "5:30 pm") /\
  main strict_env sort_stable gwords_init text (ptime_of t 3) = Ret (line (bs "2024-Sep-02 00:00:00")).
Proof.
  cbv zeta. split; [inst|]. split; [exists (Cal 2024 2 26), (Cal 2024 2 28); inst|]. split; [reflexivity|]. split; [apply separate_dec; reflexivity|].
  split; [apply (fx_holiday _ _ "labor" (NthDay 1 1 9)); [cbn; tauto|repeat constructor|discriminate|exact labor_2024]|]. split; [inst|]. split; [exact case_words|].
  split; [apply (clear_letter (bs "see you on labor day a") "t"%char (bs " ")); [repeat constructor|discriminate|reflexivity|cbn; intuition discriminate]|].
  split; [exact comma_after|]. split; [exact half_past_five|]. split; [left; reflexivity|]. split; [exact comma_no_zone|].
  split; [apply no_connectors; vm_compute; reflexivity|]. split; [apply pair_only_ok; [exact same_holiday|vm_compute; reflexivity]|vm_compute; reflexivity].
Qed.
Example C114_case : let t := Moment (Cal 2024 2 27) 9 15 0 in let k := Clock (bs "5") (bs "30") [] Pm in let text := bs "We meet at 5:30 PM, Labor Day." in
  real_instant t 3 /\ neighbours (mdate t) /\ to_lower text = bs "we meet at " ++ bs "5:30 pm" ++ bs ", " ++ (bs "labor" ++ bs " " ++ bs "day") ++ bs "." /\
  separate (bs "we meet at " ++ bs "5:30 pm" ++ bs ", ") (bs ".") /\ fixed_says t holiday (bs "we meet at " ++ bs "5:30 pm" ++ bs ", ") (bs "labor" ++ bs " " ++ bs "day") (bs ".") (Moment (Cal 2024 9 2) 0 0 0) /\
  real_moment (Moment (Cal 2024 9 2) 0 0 0) /\ clock_words (bs "5:30 pm") k (bs " pm") /\ clear_before (bs "we meet at ") /\ clear_after (bs " pm") (bs ", " ++ (bs "labor" ++ bs " " ++ bs "day") ++ bs ".") /\
  clock_time k 5 30 /\ seconds_fine k /\ on_clock (ck_mark k) 5 < 24 /\ ~ zone_follows (bs ", " ++ (bs "labor" ++ bs " " ++ bs "day") ++ bs ".") /\ (forall v, In v connectors -> ~ occurs v (bs ", ")) /\
  only_time_day strict_env text (ptime_of t 3) holiday (bs "we meet at ") (bs "5:30 pm") (bs ", ") (bs "labor" ++ bs " " ++ bs "day") /\
  main strict_env sort_stable gwords_init text (ptime_of t 3) = Ret (line (bs "2024-Feb-27 17:30:00")).
Proof.
  cbv zeta. split; [inst|]. split; [exists (Cal 2024 2 26), (Cal 2024 2 28); inst|]. split; [reflexivity|]. split; [apply separate_dec; reflexivity|].
  split; [apply (fx_holiday _ _ "labor" (NthDay 1 1 9)); [cbn; tauto|repeat constructor|discriminate|exact labor_2024]|]. split; [inst|]. split; [exact case_words|].
  split; [apply (clear_letter (bs "we meet a") "t"%char (bs " ")); [repeat constructor|discriminate|reflexivity|cbn; intuition discriminate]|].
  split; [apply (clear_sign (bs " pm") ","%char); [discriminate|reflexivity|reflexivity|cbn; intuition discriminate]|]. split; [exact half_past_five|]. split; [left; reflexivity|]. split; [cbn; lia|].
  split; [apply no_zone_comma|]. split; [apply no_connectors; vm_compute; reflexivity|]. split; [apply time_day_only_ok; [exact same_holiday|vm_compute; reflexivity]|vm_compute; reflexivity].
Qed.
