(** * Two dates joined by a connecting word are answered as a range (C97) *)
From Verif Require Import Base Regex RegexParse Calendar Components Utils Execute Spec View ParserSpec CalendarCycle CalendarFacts RegexFacts ResultFacts
  WeekSpec ExecuteFacts ParserRe MatchFacts LocateFacts HistoryFacts ParserFacts CasualFacts DeadlineFacts ISOFacts ISOShape HolidayFacts AgoFacts WeekFacts ZoneFacts MergeFacts FoundFacts OverlapFacts Refiners Main
  P_CasualDate P_CasualTime P_DayOfWeek P_Deadline P_ISO P_MonthName P_MiddleEndian P_TimeAgo P_TimeLater P_TimeExpression P_Holiday P_Week
  Prop_Execute Prop_Casual Prop_Deadline Prop_ISO Prop_Holiday Prop_Refine Prop_Ago Prop_Week Prop_Tags Prop_Dates MainFacts Prop_Main Prop_Answers Prop_Days Prop_Format Prop_Found Prop_Sentence Prop_DateTime.
From Coq Require Import ZifyBool ZifyNat ZifyN Permutation.
Open Scope string_scope.
Open Scope list_scope.
Open Scope Z_scope.

(** ** The date-time refiner leaves two results with certain dates alone *)
Lemma mdt_firm text a b : is_certain Month (r_start a) = true -> is_certain Month (r_start b) = true -> isEmpty b = false -> mdt_refine [a; b] text = Ret [res_copy a; res_copy b].
Proof.
  intros Ma Mb Nb. unfold mdt_refine. cbn [map mdt_loop]. unfold mdt_pair.
  assert (Ta : isTimeOnly (res_copy a) = false) by (unfold isTimeOnly; change (isCertain "month" (r_start (res_copy a))) with (is_certain Month (r_start a)); rewrite Ma; reflexivity).
  assert (Tb : isTimeOnly (res_copy b) = false) by (unfold isTimeOnly; change (isCertain "month" (r_start (res_copy b))) with (is_certain Month (r_start b)); rewrite Mb; reflexivity).
  rewrite Ta, Tb, !Bool.andb_false_r. cbn [bind]. rewrite isEmpty_copy, Nb. reflexivity.
Qed.
(** ** The range refiner *)
Lemma mdr_linked text a b ta tb : solid text a -> solid text b -> Z.of_nat (List.length text) < 2 ^ 31 -> linked text a b ->
  denotes (r_start a) ta -> denotes (r_start b) tb -> real_moment ta -> real_moment tb -> exists m rest, mdr_refine [a; b] text = Ret (m :: rest) /\ ranged text (res_copy a) (res_copy b) m.
Proof.
  intros Sa Sb L (Ha & Hb & Lk) Da Db Ra Rb. unfold mdr_refine. cbn [map mdr_loop].
  change (has_end (res_copy a)) with (has_end a). change (has_end (res_copy b)) with (has_end b). rewrite Ha, Hb. cbn [negb andb].
  destruct (mdr_able_val text (res_copy a) (res_copy b) Sa Sb L) as (x & Ax & Ex). rewrite Ax. cbn [bind]. replace x with true by (symmetry; apply Ex; exact Lk).
  assert (Q : exists m, mdr_merge text (res_copy a) (res_copy b) = Ret m).
  { unfold mdr_merge. cbn [r_start res_copy]. rewrite (pc_date_denotes _ _ Da Ra), (pc_date_denotes _ _ Db Rb). cbn [bind].
    destruct Sa as (A1 & A2 & A3), Sb as (B1 & B2 & B3). unfold stops, starts in *.
    destruct (ptime_of tb 0 <? ptime_of ta 0); unfold substrZ;
      match goal with |- context [Z.of_nat (List.length text) <? ?n] => replace (Z.of_nat (List.length text) <? n) with false by (symmetry; apply Z.ltb_ge; unfold getIndex in *; cbn [r_index res_copy makeEndDateValid with_end]; clear - A2 A3 B2 B3; lia) end; cbn [bind]; eauto. }
  destruct Q as (m & Em). rewrite Em. cbn [bind]. pose proof (merged_ranged _ _ _ _ Em) as Rg.
  pose proof (ranged_solid text (res_copy a) (res_copy b) m Sa Sb L Rg) as Nm. rewrite Nm. cbn [bind]. eauto.
Qed.
Lemma moment_order ta tb : (ptime_of tb 0 <? ptime_of ta 0) = (sec_count tb <? sec_count ta).
Proof. unfold ptime_of, sec_count, dn_of, DAY, SEC. lia. Qed.
(** two dates, a connecting word between them *)
Definition later (a b : moment) : moment := if sec_count b <? sec_count a then a else b.
Lemma refined_range text a b ta tb : no_zone text a -> no_zone text b -> res_copy a = a -> res_copy b = b ->
  is_certain Month (r_start a) = true -> is_certain Month (r_start b) = true -> has_end a = false -> has_end b = false ->
  denotes (r_start a) ta -> denotes (r_start b) tb -> real_moment ta -> real_moment tb -> tag_is TExtractTZ a = false -> tag_is TExtractTZ b = false ->
  solid text a -> solid text b -> Z.of_nat (List.length text) < 2 ^ 31 -> (exists w, In w connectors /\ occurs w (between text a b)) ->
  exists m rest, (rs <- tz_refine [a; b] text ;; rs <- mdt_refine rs text ;; mdr_refine rs text) = Ret (m :: rest) /\ toDate m = Ret (bs (written ta ++ " - " ++ written (later ta tb))%string).
Proof.
  intros Za Zb Ca Cb Ma Mb Ea Eb Da Db Ra Rb Ta Tb Sa Sb L Cn. rewrite tz_refine_total. cbn [bind map]. rewrite Ca, Cb.
  pose proof (proj1 (tz_one_spec text a) Za) as S1. pose proof (proj1 (tz_one_spec text b) Zb) as S2. cbv zeta in S1, S2.
  set (a' := res_copy (tz_one tz_re text a)) in *. set (b' := res_copy (tz_one tz_re text b)) in *.
  destruct (same_stops _ _ S1) as (P1 & P2 & P3). destruct (same_stops _ _ S2) as (Q1 & Q2 & Q3).
  destruct S1 as (_ & _ & _ & V1 & H1 & _ & G1). destruct S2 as (_ & _ & _ & V2 & H2 & _ & G2).
  assert (Nb : isEmpty b' = false). { destruct Sb as (_ & Sb & _). apply filled_nonempty. intros E. unfold textLength in Q3, Sb. rewrite E in Q3. cbn [List.length] in Q3. clear - Q3 Sb. lia. }
  rewrite (mdt_firm text a' b'); [|rewrite V1; exact Ma|rewrite V2; exact Mb|exact Nb]. cbn [bind].
  destruct (mdr_linked text (res_copy a') (res_copy b') ta tb) as (m & rest & Em & Rg); auto.
  - unfold solid. change (starts (res_copy a')) with (starts a'). change (stops (res_copy a')) with (stops a'). change (textLength (res_copy a')) with (textLength a'). rewrite P1, P2, P3. exact Sa.
  - unfold solid. change (starts (res_copy b')) with (starts b'). change (stops (res_copy b')) with (stops b'). change (textLength (res_copy b')) with (textLength b'). rewrite Q1, Q2, Q3. exact Sb.
  - unfold linked. change (has_end (res_copy a')) with (has_end a'). change (has_end (res_copy b')) with (has_end b'). rewrite H1, H2. split; [exact Ea|]. split; [exact Eb|].
    unfold between in *. change (starts (res_copy b')) with (starts b'). change (stops (res_copy a')) with (stops a'). rewrite P1, Q2. exact Cn.
  - cbn [res_copy r_start]. rewrite V1. exact Da.
  - cbn [res_copy r_start]. rewrite V2. exact Db.
  - exists m, rest. split; [exact Em|]. destruct Rg as (pa & pb & A1 & A2 & Rg). cbv zeta in Rg. cbn [r_start res_copy] in A1, A2. rewrite V1, (pc_date_denotes _ _ Da Ra) in A1. rewrite V2, (pc_date_denotes _ _ Db Rb) in A2.
    injection A1 as <-. injection A2 as <-. rewrite moment_order in Rg. unfold later.
    assert (Ga : forall v, r_tags (res_copy (res_copy a')) TExtractTZ = Some v -> v = false).
    { intros v Ev. cbn [r_tags res_copy] in Ev. specialize (G1 TExtractTZ). rewrite Ta, tag_is_tags, Ev in G1. exact G1. }
    assert (Gc : forall x, tag_is TExtractTZ (res_copy x) = tag_is TExtractTZ x) by (intros x; rewrite !tag_is_tags; reflexivity).
    destruct (sec_count tb <? sec_count ta); destruct Rg as (M1 & M2 & M3 & _ & _ & _ & M4); cbn [r_start res_copy] in M1, M3.
    + apply toDate_range; auto; [rewrite M1, V1; exact Da|rewrite M4|rewrite M3, V1; exact Da].
      destruct (r_tags (res_copy (res_copy a')) TExtractTZ) as [v|]; [apply Ga; reflexivity|]. rewrite !Gc, G1, Ta. reflexivity.
    + apply toDate_range; auto; [rewrite M1, V1; exact Da|rewrite M4|rewrite M3, V2; exact Db].
      destruct (r_tags (res_copy (res_copy a')) TExtractTZ) as [v|]; [apply Ga; reflexivity|]. rewrite !Gc, G2, Tb. reflexivity.
Qed.

(** ** Phrases with a certain date *)
Definition firm : list parser := [casual_date; iso; holiday].
Lemma firm_plain p : In p firm -> In p [casual_date; casual_time; deadline; iso; holiday; week].
Proof. cbn. tauto. Qed.
Lemma firm_month e text t us p pre w post mo l res sp : sane e -> real_instant t us -> neighbours (mdate t) -> Z.of_nat (List.length text) < 2 ^ 32 ->
  to_lower text = pre ++ w ++ post -> separate pre post -> phrase_says t p pre w post mo -> In p firm -> alone e p text (ptime_of t us) = Ret l ->
  In res l -> stands res pre (w ++ sp) -> is_certain Month (r_start res) = true.
Proof.
  intros He H N Hn E Sp Ps Ip El I St.
  assert (K : p = casual_date \/ p = iso \/ p = holiday) by (cbn in Ip; destruct Ip as [<-|[<-|[<-|[]]]]; auto).
  destruct K as [-> | [-> | -> ]].
  - destruct (C18_casual_dates e gwords_init text t us l res He H El I) as (_ & _ & M). unfold is_certain.
    destruct M as [(_ & D & _)|[(_ & D & _)|[(_ & D & _)|[(s & c & _ & _ & _ & _ & D & _)|[(s & c & _ & _ & _ & _ & D & _)|(s & c & _ & _ & _ & _ & D & _)]]]]]; apply D.
  - destruct (C29_impossible_dates_partial e gwords_init text (ptime_of t us) l res He El I) as (y & m & d & D & _). apply D.
  - inversion Ps as [| | | | | | | | | |pre' x r sp' post' c D1 D2 D3 D4| | |]; subst.
    destruct (C88_holidays_stand e gwords_init text t us pre x r sp' post l He H Hn D1 D2 D3 E Sp El) as (res' & I' & St' & En & c' & Rc & F & D & _).
    assert (res' = res); [|subst; apply D]. assert (Ih : In holiday all_parsers) by (cbn; tauto).
    pose proof (result_text _ _ _ _ _ _ _ He Ih El I) as T1. pose proof (result_text _ _ _ _ _ _ _ He Ih El I') as T2.
    assert (Q1 : 0 < textLength res) by (unfold textLength; destruct (r_text res); [congruence|cbn [List.length]; clear; lia]). assert (Q2 : 0 < textLength res') by (unfold textLength; destruct (r_text res'); [congruence|cbn [List.length]; clear; lia]).
    apply (in_order_unique (Z.of_nat (List.length text)) l); auto; [apply (C13_results_in_order _ _ _ _ _ _ He Ih Hn El)|]. destruct St as [Ix _], St' as [Ix' _]. rewrite Ix, Ix'. clear - Q1. lia.
Qed.
(** the blanks after a casual date are not part of the connecting word *)
Lemma blank_prefix sp rest mid v z : blanks sp -> mid ++ z = sp ++ rest -> In v connectors -> occurs v mid -> exists mid', mid = sp ++ mid' /\ occurs v mid'.
Proof.
  intros B E Iv (a & b & Em). subst mid.
  assert (Hv : exists x v', v = x :: v' /\ is_space x = false) by (cbn in Iv; destruct Iv as [<-|[<-|[<-|[<-|[]]]]]; cbn; eauto).
  destruct Hv as (x & v' & -> & Hx). revert a E. induction B as [|y sp Hy B IH]; intros a E.
  - exists (a ++ (x :: v') ++ b). split; [reflexivity|exists a, b; reflexivity].
  - destruct a as [|a0 a]; cbn [app] in E; injection E as E1 E2; [exfalso; congruence|]. subst y. destruct (IH a E2) as (mid' & F & O). exists mid'. split; [cbn [app] in F |- *; rewrite F; reflexivity|exact O].
Qed.

(** ** The answer *)
(** whatever is recognised begins inside one of the two phrases, and the other parsers' results are shorter than it *)
Definition only_two (e : env) (text : bytes) (ref : ptime) (p1 p2 : parser) (pre w1 mid w2 : bytes) : Prop :=
  let first := Z.of_nat (List.length pre) in let past := first + Z.of_nat (List.length w1) in let second := past + Z.of_nat (List.length mid) in
  forall q, In q parsers -> exists l, x_res (execute e q gwords_init text ref) = Ret l /\ forall r, In r l ->
     (first <= getIndex r < past /\ (q = p1 \/ textLength r < Z.of_nat (List.length w1))) \/
     (second <= getIndex r < second + Z.of_nat (List.length w2) /\ (q = p2 \/ textLength r < Z.of_nat (List.length w2))).

(** the results [w1] and [w2] of the parsers [p1] and [p2] name the moments [m1] and [m2] with certainty; the first may include a beginning [s] of the text between them *)
Definition first_date (e : env) (text : bytes) (ref : ptime) (p : parser) (pre w mid v : bytes) (m : moment) : Prop :=
  forall l, alone e p text ref = Ret l -> exists r s mid', In r l /\ stands r pre (w ++ s) /\ mid = s ++ mid' /\ occurs v mid' /\
    has_end r = false /\ denotes (r_start r) m /\ is_certain Month (r_start r) = true /\ tag_is TTimeExpression r = false.
Definition second_date (e : env) (text : bytes) (ref : ptime) (p : parser) (pre w : bytes) (m : moment) : Prop :=
  forall l, alone e p text ref = Ret l -> exists r s, In r l /\ stands r pre (w ++ s) /\
    has_end r = false /\ denotes (r_start r) m /\ is_certain Month (r_start r) = true /\ tag_is TTimeExpression r = false.
Lemma range_core e sortf text ref p1 p2 pre w1 mid w2 post m1 m2 v : sane e -> is_sort sortf -> Z.of_nat (List.length text) < 2 ^ 31 ->
  to_lower text = pre ++ w1 ++ mid ++ w2 ++ post -> In p1 parsers -> In p2 parsers -> w1 <> [] -> w2 <> [] ->
  first_date e text ref p1 pre w1 mid v m1 -> second_date e text ref p2 (pre ++ w1 ++ mid) w2 m2 -> real_moment m1 -> real_moment m2 ->
  In v connectors -> only_two e text ref p1 p2 pre w1 mid w2 ->
  main e sortf gwords_init text ref = Ret (line (bs (written m1 ++ " - " ++ written (later m1 m2))%string)).
Proof.
  intros He Hs Hn E Jp1 Jp2 Nw1 Nw2 F1 F2 R1 R2 Iv Al.
  assert (Hn2 : Z.of_nat (List.length text) < 2 ^ 32) by (clear - Hn; lia).
  assert (E2 : to_lower text = (pre ++ w1 ++ mid) ++ w2 ++ post) by (rewrite E, <- !app_assoc; reflexivity).
  destruct (Al p1 Jp1) as (l1 & El1 & B1). destruct (Al p2 Jp2) as (l2 & El2 & B2).
  destruct (F1 l1 El1) as (a & s1 & mid' & Ia & Sa & Em & Ov' & Ea & Da & Ma & Ua).
  destruct (F2 l2 El2) as (b & s2 & Ib & Sb & Eb & Db & Mb & Ub).
  assert (Ll : List.length (to_lower text) = List.length text) by (unfold to_lower; apply map_length).
  assert (Ix : getIndex a = Z.of_nat (List.length pre)) by apply Sa. assert (Iy : getIndex b = Z.of_nat (List.length (pre ++ w1 ++ mid))) by apply Sb.
  assert (La : textLength a = Z.of_nat (List.length w1) + Z.of_nat (List.length s1)) by (unfold textLength; rewrite (proj2 Sa), app_length; clear; lia).
  assert (Lb : textLength b = Z.of_nat (List.length w2) + Z.of_nat (List.length s2)) by (unfold textLength; rewrite (proj2 Sb), app_length; clear; lia).
  assert (Lm : List.length mid = (List.length s1 + List.length mid')%nat) by (rewrite Em, app_length; reflexivity). rewrite !app_length in Iy.
  assert (Lw1 : (0 < List.length w1)%nat) by (destruct w1; [congruence|cbn [List.length]; clear; lia]). assert (Lw2 : (0 < List.length w2)%nat) by (destruct w2; [congruence|cbn [List.length]; clear; lia]).
  assert (Apart : getIndex a + textLength a <= getIndex b) by (rewrite Ix, Iy, La; clear - Lm; lia).
  assert (A : exists rs, all_alone e parsers text ref = Ret rs).
  { assert (Q : exists rss, Forall2 (fun p l => alone e p text ref = Ret l) parsers rss).
    { assert (Al' : forall p, In p parsers -> exists l, alone e p text ref = Ret l) by (intros q0 Iq; destruct (Al q0 Iq) as (l & El & _); eexists; exact El).
      revert Al'. clear. generalize parsers as ps. induction ps as [|p ps IH]; intros Al; [exists []; constructor|]. destruct (Al p (or_introl eq_refl)) as (l & El).
      destruct IH as [rss F]; [intros q' I'; apply Al; right; exact I'|]. exists (l :: rss). constructor; assumption. }
    destruct Q as [rss F]. exists (List.concat rss). apply all_alone_ret. eauto. }
  destruct A as [rs A].
  assert (Ira : In a rs) by (apply (all_alone_in _ _ _ _ _ A); exists p1, l1; split; [exact Jp1|split; [exact El1|exact Ia]]).
  assert (Irb : In b rs) by (apply (all_alone_in _ _ _ _ _ A); exists p2, l2; split; [exact Jp2|split; [exact El2|exact Ib]]).
  assert (Cp : forall x, In x rs -> res_copy x = x).
  { intros x Ixx. apply (all_alone_in _ _ _ _ _ A) in Ixx as (p0 & l & Ip0 & Xp & Il). pose proof (execute_copies _ _ _ _ _ _ Xp) as E0.
    clear - E0 Il. induction l as [|y l IH]; [contradiction|]. cbn [map] in E0. injection E0 as E1 E2. destruct Il as [<-|Il]; auto. }
  assert (Bound : forall l r, in_order (Z.of_nat (List.length text)) l -> In r l -> getIndex r + textLength r <= Z.of_nat (List.length text)).
  { clear. intros l r O It. induction O as [|x l H1 H2 H3 O IH]; [contradiction|]. destruct It as [<-|It]; [exact H2|exact (IH It)]. }
  pose proof (C13_results_in_order _ _ _ _ _ _ He (in_all _ Jp1) Hn2 El1) as O1. pose proof (C13_results_in_order _ _ _ _ _ _ He (in_all _ Jp2) Hn2 El2) as O2.
  pose proof (Bound _ _ O1 Ia) as Ba. pose proof (Bound _ _ O2 Ib) as Bb.
  rewrite (main_two e sortf text ref rs a b He Hs A Ira Irb Apart).
  - destruct (refined_range (to_lower text) a b m1 m2) as (m & ms & M1 & M2); auto.
    + apply untimed_no_zone. exact Ua.
    + apply untimed_no_zone. exact Ub.
    + apply (C73_no_refiner_tag e p1 gwords_init text ref l1 a TExtractTZ He (in_all _ Jp1) El1 Ia). left. reflexivity.
    + apply (C73_no_refiner_tag e p2 gwords_init text ref l2 b TExtractTZ He (in_all _ Jp2) El2 Ib). left. reflexivity.
    + unfold solid, starts, stops. rewrite Ll. clear - Ix La Lw1 Ba. lia.
    + unfold solid, starts, stops. rewrite Ll. clear - Iy Lb Lw2 Bb. lia.
    + rewrite Ll. exact Hn.
    + exists v. split; [exact Iv|]. unfold between, stops, starts. replace (getIndex a + textLength a <=? getIndex b) with true by (clear - Apart; lia).
      replace (Z.to_nat (getIndex a + textLength a)) with (List.length (pre ++ w1 ++ s1) + 0)%nat by (rewrite !app_length, Ix, La; clear; lia).
      replace (Z.to_nat (getIndex b - (getIndex a + textLength a))) with (List.length mid' + 0)%nat by (rewrite Ix, Iy, La; clear - Lm; lia).
      replace (to_lower text) with ((pre ++ w1 ++ s1) ++ mid' ++ w2 ++ post) by (rewrite E, Em, <- !app_assoc; reflexivity).
      rewrite Prop_ClockAnswer.skip_tail. cbn [skipn]. rewrite firstn_app_2. cbn [firstn]. rewrite app_nil_r. exact Ov'.
    + rewrite M1. cbn [bind show]. rewrite M2. reflexivity.
  - intros r Irr. apply (all_alone_in _ _ _ _ _ A) in Irr as (p0 & l0 & Ip0 & X0 & Il0). destruct (Al p0 Ip0) as (l & El & Bl). unfold alone in X0. rewrite El in X0. apply RelativeFacts.ret_inj in X0. subst l0.
    assert (T0 : 0 < textLength r). { pose proof (result_text _ _ _ _ _ _ _ He (in_all _ Ip0) El Il0) as T0. unfold textLength. destruct (r_text r); [congruence|cbn [List.length]; clear; lia]. }
    destruct (Bl r Il0) as [(B3 & [-> | B4])|(B3 & [-> | B4])].
    + left. rewrite El1 in El. apply RelativeFacts.ret_inj in El. subst l. apply (in_order_unique (Z.of_nat (List.length text)) l1); auto; clear - La Ix Lw1 B3; lia.
    + right. right. left. clear - La Ix Lw1 B3 B4. lia.
    + right. left. rewrite El2 in El. apply RelativeFacts.ret_inj in El. subst l. apply (in_order_unique (Z.of_nat (List.length text)) l2); auto; clear - Lb Iy Lw2 B3; lia.
    + right. right. right. clear - Lb Iy Lw2 B3 B4. lia.
Qed.
Lemma range_main e sortf text t us p1 p2 pre w1 mid w2 post m1 m2 v : sane e -> is_sort sortf -> real_instant t us -> neighbours (mdate t) -> Z.of_nat (List.length text) < 2 ^ 31 ->
  to_lower text = pre ++ w1 ++ mid ++ w2 ++ post -> separate pre (mid ++ w2 ++ post) -> separate (pre ++ w1 ++ mid) post ->
  In p1 firm -> In p2 firm -> phrase_says t p1 pre w1 (mid ++ w2 ++ post) m1 -> phrase_says t p2 (pre ++ w1 ++ mid) w2 post m2 -> real_moment m1 -> real_moment m2 ->
  In v connectors -> occurs v mid -> only_two e text (ptime_of t us) p1 p2 pre w1 mid w2 ->
  main e sortf gwords_init text (ptime_of t us) = Ret (line (bs (written m1 ++ " - " ++ written (later m1 m2))%string)).
Proof.
  intros He Hs H N Hn E Sp1 Sp2 Ip1 Ip2 Ps1 Ps2 R1 R2 Iv Ov Al.
  assert (Hn2 : Z.of_nat (List.length text) < 2 ^ 32) by (clear - Hn; lia).
  assert (E2 : to_lower text = (pre ++ w1 ++ mid) ++ w2 ++ post) by (rewrite E, <- !app_assoc; reflexivity).
  pose proof (plain_in p1 (firm_plain _ Ip1)) as Jp1. pose proof (plain_in p2 (firm_plain _ Ip2)) as Jp2.
  destruct (says_parser _ _ _ _ _ _ Ps1) as [Nw1 _]. destruct (says_parser _ _ _ _ _ _ Ps2) as [Nw2 _].
  apply (range_core e sortf text (ptime_of t us) p1 p2 pre w1 mid w2 post m1 m2 v); auto.
  - intros l1 El1.
    destruct (phrase_found e text t us p1 pre w1 (mid ++ w2 ++ post) m1 l1 He H N Hn2 E Sp1 Ps1 R1 El1) as (a & s1 & Ia & Sa & Bs & Ea & Da).
    pose proof (firm_month e text t us p1 pre w1 (mid ++ w2 ++ post) m1 l1 a s1 He H N Hn2 E Sp1 Ps1 Ip1 El1 Ia Sa) as Ma.
    (* where the first result ends *)
    assert (Q : exists mid', mid = s1 ++ mid' /\ occurs v mid').
    { assert (Lo : firstn (Z.to_nat (textLength a)) (skipn (Z.to_nat (getIndex a)) (to_lower text)) = r_text a).
      { apply (C14_located e p1 gwords_init text (ptime_of t us) l1 a He (in_all _ Jp1)); auto; intros ->; cbn in Ip1; destruct Ip1 as [X|[X|[X|[]]]]; discriminate X. }
      destruct Sa as [S1 S2]. unfold textLength in Lo. rewrite S1, S2, !Nat2Z.id, E, skipn_app, skipn_all2 in Lo by lia. rewrite Nat.sub_diag in Lo. cbn [skipn app] in Lo.
      rewrite app_length, firstn_app, firstn_all2 in Lo by lia. apply app_inv_head in Lo. replace (List.length w1 + List.length s1 - List.length w1)%nat with (List.length s1) in Lo by lia.
      apply (blank_prefix s1 (skipn (List.length s1) (mid ++ w2 ++ post)) mid v (w2 ++ post)); auto; rewrite <- Lo at 1; rewrite firstn_skipn; reflexivity. }
    destruct Q as (mid' & Em & Ov'). exists a, s1, mid'. repeat (split; [assumption|]). exact (plain_untimed e p1 text _ l1 a He (firm_plain _ Ip1) El1 Ia).
  - intros l2 El2.
    destruct (phrase_found e text t us p2 (pre ++ w1 ++ mid) w2 post m2 l2 He H N Hn2 E2 Sp2 Ps2 R2 El2) as (b & s2 & Ib & Sb & _ & Eb & Db).
    pose proof (firm_month e text t us p2 (pre ++ w1 ++ mid) w2 post m2 l2 b s2 He H N Hn2 E2 Sp2 Ps2 Ip2 El2 Ib Sb) as Mb.
    exists b, s2. repeat (split; [assumption|]). exact (plain_untimed e p2 text _ l2 b He (firm_plain _ Ip2) El2 Ib).
Qed.

(** C97.  A text contains two phrases with dates (casual dates, ISO dates, holidays), a connecting word ("and", "to", "through" or "-") somewhere between them, and nothing
    else is recognised.  If the first moment is not after the second, the program prints the range from the first to the second. *)
Theorem C97_range_answer : forall e sortf text t us p1 p2 pre w1 mid w2 post m1 m2 v, sane e -> is_sort sortf -> real_instant t us -> neighbours (mdate t) -> Z.of_nat (List.length text) < 2 ^ 31 ->
  to_lower text = pre ++ w1 ++ mid ++ w2 ++ post -> separate pre (mid ++ w2 ++ post) -> separate (pre ++ w1 ++ mid) post ->
  In p1 firm -> In p2 firm -> phrase_says t p1 pre w1 (mid ++ w2 ++ post) m1 -> phrase_says t p2 (pre ++ w1 ++ mid) w2 post m2 -> real_moment m1 -> real_moment m2 ->
  In v connectors -> occurs v mid -> only_two e text (ptime_of t us) p1 p2 pre w1 mid w2 -> sec_count m1 <= sec_count m2 ->
  main e sortf gwords_init text (ptime_of t us) = Ret (line (bs (written m1 ++ " - " ++ written m2)%string)).
Proof.
  intros e sortf text t us p1 p2 pre w1 mid w2 post m1 m2 v He Hs H N Hn E Sp1 Sp2 Ip1 Ip2 Ps1 Ps2 R1 R2 Iv Ov Al Le.
  rewrite (range_main e sortf text t us p1 p2 pre w1 mid w2 post m1 m2 v); auto. unfold later. replace (sec_count m2 <? sec_count m1) with false by (clear - Le; lia). reflexivity.
Qed.
Print Assumptions C97_range_answer.
(** ... if it is after it, the program prints the first moment twice (C52): the second is lost *)
Theorem C97_backward_range : forall e sortf text t us p1 p2 pre w1 mid w2 post m1 m2 v, sane e -> is_sort sortf -> real_instant t us -> neighbours (mdate t) -> Z.of_nat (List.length text) < 2 ^ 31 ->
  to_lower text = pre ++ w1 ++ mid ++ w2 ++ post -> separate pre (mid ++ w2 ++ post) -> separate (pre ++ w1 ++ mid) post ->
  In p1 firm -> In p2 firm -> phrase_says t p1 pre w1 (mid ++ w2 ++ post) m1 -> phrase_says t p2 (pre ++ w1 ++ mid) w2 post m2 -> real_moment m1 -> real_moment m2 ->
  In v connectors -> occurs v mid -> only_two e text (ptime_of t us) p1 p2 pre w1 mid w2 -> sec_count m2 < sec_count m1 ->
  main e sortf gwords_init text (ptime_of t us) = Ret (line (bs (written m1 ++ " - " ++ written m1)%string)).
Proof.
  intros e sortf text t us p1 p2 pre w1 mid w2 post m1 m2 v He Hs H N Hn E Sp1 Sp2 Ip1 Ip2 Ps1 Ps2 R1 R2 Iv Ov Al Le.
  rewrite (range_main e sortf text t us p1 p2 pre w1 mid w2 post m1 m2 v); auto. unfold later. replace (sec_count m2 <? sec_count m1) with true by (clear - Le; lia). reflexivity.
Qed.
Print Assumptions C97_backward_range.

(** Other dates are not joined: the date of "in 5 days" is only implied, so that it counts as a time, and the two are merged as a date and a time. *)
Theorem C97_implied_dates_differ :
  main strict_env sort_stable gwords_init (bs "in 2 days to in 5 days") feb27 = Ret (line (bs "2024-Feb-29 00:00:00")) /\
  main strict_env sort_stable gwords_init (bs "next week through next 3 weeks") feb27 = Ret (line (bs "2024-Mar-05 00:00:00")).
Proof. split; vm_compute; reflexivity. Qed.
Print Assumptions C97_implied_dates_differ.

Definition two_only (e : env) (text : bytes) (ref : ptime) (p1 p2 : parser) (pre w1 mid w2 : bytes) : bool :=
  let first := Z.of_nat (List.length pre) in let past := first + Z.of_nat (List.length w1) in let second := past + Z.of_nat (List.length mid) in
  forallb (fun q => match x_res (execute e q gwords_init text ref) with
    | Ret l => forallb (fun r => (first <=? getIndex r) && (getIndex r <? past) && (beq (p_pattern q) (p_pattern p1) || (textLength r <? Z.of_nat (List.length w1))) ||
                 (second <=? getIndex r) && (getIndex r <? second + Z.of_nat (List.length w2)) && (beq (p_pattern q) (p_pattern p2) || (textLength r <? Z.of_nat (List.length w2)))) l
    | _ => false end) parsers.
Lemma two_only_ok e text ref p1 p2 pre w1 mid w2 : (forall q, In q parsers -> beq (p_pattern q) (p_pattern p1) = true -> q = p1) -> (forall q, In q parsers -> beq (p_pattern q) (p_pattern p2) = true -> q = p2) ->
  two_only e text ref p1 p2 pre w1 mid w2 = true -> only_two e text ref p1 p2 pre w1 mid w2.
Proof.
  unfold two_only, only_two. generalize parsers. intros ps Sa Sb H. cbv zeta in *. intros q Iq. rewrite forallb_forall in H. specialize (H q Iq). specialize (Sa q Iq). specialize (Sb q Iq).
  destruct (x_res (execute e q gwords_init text ref)) as [l| | | |]; try discriminate H. exists l. split; [reflexivity|]. intros r Ir. rewrite forallb_forall in H. specialize (H r Ir).
  destruct (beq (p_pattern q) (p_pattern p1)); [specialize (Sa eq_refl)|clear Sa]; (destruct (beq (p_pattern q) (p_pattern p2)); [specialize (Sb eq_refl)|clear Sb]).
  all: apply Bool.orb_true_iff in H as [H|H]; apply andb_prop in H as [H1 H2]; [left|right]; (split; [clear - H1; lia|]); auto; right; clear - H2; lia.
Qed.
Lemma same_firm p q : In p firm -> In q parsers -> beq (p_pattern q) (p_pattern p) = true -> q = p.
Proof.
  intros Ip I E. cbn in Ip. destruct Ip as [<-|[<-|[<-|[]]]]; cbn in I; repeat (destruct I as [<-|I]; [first [reflexivity|vm_compute in E; discriminate E]|]); contradiction.
Qed.
Example C97_case : let t := Moment (Cal 2024 2 27) 9 15 0 in let text := bs "We are away from Tomorrow through Labor Day!" in
  real_instant t 3 /\ neighbours (mdate t) /\ to_lower text = bs "we are away from " ++ bs "tomorrow" ++ bs " through " ++ (bs "labor" ++ bs " " ++ bs "day") ++ bs "!" /\
  separate (bs "we are away from ") (bs " through " ++ (bs "labor" ++ bs " " ++ bs "day") ++ bs "!") /\ separate (bs "we are away from " ++ bs "tomorrow" ++ bs " through ") (bs "!") /\
  phrase_says t casual_date (bs "we are away from ") (bs "tomorrow") (bs " through " ++ (bs "labor" ++ bs " " ++ bs "day") ++ bs "!") (Moment (Cal 2024 2 28) 0 0 0) /\
  phrase_says t holiday (bs "we are away from " ++ bs "tomorrow" ++ bs " through ") (bs "labor" ++ bs " " ++ bs "day") (bs "!") (Moment (Cal 2024 9 2) 0 0 0) /\
  occurs (bs "through") (bs " through ") /\ only_two strict_env text (ptime_of t 3) casual_date holiday (bs "we are away from ") (bs "tomorrow") (bs " through ") (bs "labor" ++ bs " " ++ bs "day") /\
  main strict_env sort_stable gwords_init text (ptime_of t 3) = Ret (line (bs "2024-Feb-28 00:00:00 - 2024-Sep-02 00:00:00")).
Proof.
  cbv zeta. split; [inst|]. split; [exists (Cal 2024 2 26), (Cal 2024 2 28); inst|]. split; [reflexivity|]. split; [apply separate_dec; reflexivity|]. split; [apply separate_dec; reflexivity|]. split.
  { apply ps_tomorrow; [auto|concrete]. }
  split. { apply (ps_holiday _ _ "labor" (NthDay 1 1 9)); [cbn; tauto|repeat constructor|discriminate|]. split; [reflexivity|]. split; [reflexivity|]. unfold nth_weekday. concrete. }
  split; [exists (bs " "), (bs " "); reflexivity|].
  split; [apply two_only_ok; [intros q; apply same_firm; cbn; tauto|intros q; apply same_firm; cbn; tauto|vm_compute; reflexivity]|vm_compute; reflexivity].
Qed.
