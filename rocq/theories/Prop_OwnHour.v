(** * Two phrases one of which has its own hour (C125, C126) *)
From Verif Require Import Base Regex RegexParse Calendar Components Utils Execute Spec View ParserSpec PhraseSpec WeekSpec MiddleSpec CalendarCycle CalendarFacts RegexFacts ResultFacts
  ExecuteFacts ParserRe MatchFacts LocateFacts HistoryFacts ParserFacts CasualFacts DeadlineFacts HolidayFacts ISOShape ISOFacts ZoneFacts MergeFacts FoundFacts OverlapFacts P_CasualDate P_CasualTime P_ISO P_Deadline P_Week P_Holiday P_MiddleEndian MiddleFacts Prop_Casual Prop_Holiday Prop_Deadline Prop_Middle Prop_Found Refiners Main Prop_Execute Prop_Refine Prop_Tags
  MainFacts Prop_Main Prop_Answers Prop_Format Prop_Sentence Prop_ClockAnswer Prop_DateTime Prop_Range Prop_MonthText Prop_MonthTime Prop_TimeDay Prop_MonthClock Prop_Fixed Prop_TwoDates Prop_Vague.
From Coq Require Import ZifyBool ZifyNat ZifyN.
Open Scope string_scope.
Open Scope list_scope.
Open Scope Z_scope.


(** ** A result with a certain hour and month is never merged *)
Definition hour_and_month (r : result) : Prop := is_certain Hour (r_start r) = true /\ is_certain Month (r_start r) = true.
Definition unmerged (a b : result) : Prop := hour_and_month a \/ hour_and_month b.
Lemma mdt_unmerged text a b : unmerged a b -> isEmpty b = false -> mdt_refine [a; b] text = Ret [res_copy a; res_copy b].
Proof.
  intros Um Nb. unfold mdt_refine. cbn [map mdt_loop]. unfold mdt_pair.
  assert (Q : forall x, hour_and_month x -> isDateOnly (res_copy x) = false /\ isTimeOnly (res_copy x) = false).
  { intros x [Hh Hm]. split; [unfold isDateOnly; rewrite hour_cert; cbn [res_copy r_start]; rewrite Hh; reflexivity|].
    unfold isTimeOnly. change (isCertain "month" (r_start (res_copy x))) with (is_certain Month (r_start x)). rewrite Hm. reflexivity. }
  destruct Um as [U|U]; destruct (Q _ U) as [Q1 Q2]; rewrite Q1, Q2, !Bool.andb_false_r; cbn [andb bind]; rewrite isEmpty_copy, Nb; reflexivity.
Qed.
Lemma refined_unmerged_range text a b ta tb : no_zone text a -> no_zone text b -> res_copy a = a -> res_copy b = b ->
  unmerged a b -> has_end a = false -> has_end b = false ->
  denotes (r_start a) ta -> denotes (r_start b) tb -> real_moment ta -> real_moment tb -> tag_is TExtractTZ a = false -> tag_is TExtractTZ b = false ->
  MergeFacts.solid text a -> MergeFacts.solid text b -> Z.of_nat (List.length text) < 2 ^ 31 -> (exists w, In w connectors /\ occurs w (between text a b)) ->
  exists m rest, (rs <- tz_refine [a; b] text ;; rs <- mdt_refine rs text ;; mdr_refine rs text) = Ret (m :: rest) /\ toDate m = Ret (bs (written ta ++ " - " ++ written (later ta tb))%string).
Proof.
  intros Za Zb Ca Cb Um Ea Eb Da Db Ra Rb Ta Tb Sa Sb L Cn. rewrite tz_refine_total. cbn [bind map]. rewrite Ca, Cb.
  pose proof (proj1 (tz_one_spec text a) Za) as S1. pose proof (proj1 (tz_one_spec text b) Zb) as S2. cbv zeta in S1, S2.
  set (a' := res_copy (tz_one tz_re text a)) in *. set (b' := res_copy (tz_one tz_re text b)) in *.
  destruct (same_stops _ _ S1) as (P1 & P2 & P3). destruct (same_stops _ _ S2) as (Q1 & Q2 & Q3).
  destruct S1 as (_ & _ & _ & V1 & H1 & _ & G1). destruct S2 as (_ & _ & _ & V2 & H2 & _ & G2).
  assert (Nb : isEmpty b' = false). { destruct Sb as (_ & Sb & _). apply filled_nonempty. intros E. unfold textLength in Q3, Sb. rewrite E in Q3. cbn [List.length] in Q3. clear - Q3 Sb. lia. }
  rewrite (mdt_unmerged text a' b'); [|unfold unmerged, hour_and_month; rewrite V1, V2; exact Um|exact Nb]. cbn [bind].
  destruct (mdr_linked text (res_copy a') (res_copy b') ta tb) as (m & rest & Em & Rg); auto.
  - unfold MergeFacts.solid. change (starts (res_copy a')) with (starts a'). change (stops (res_copy a')) with (stops a'). change (textLength (res_copy a')) with (textLength a'). rewrite P1, P2, P3. exact Sa.
  - unfold MergeFacts.solid. change (starts (res_copy b')) with (starts b'). change (stops (res_copy b')) with (stops b'). change (textLength (res_copy b')) with (textLength b'). rewrite Q1, Q2, Q3. exact Sb.
  - unfold linked. change (has_end (res_copy a')) with (has_end a'). change (has_end (res_copy b')) with (has_end b'). rewrite H1, H2. split; [exact Ea|]. split; [exact Eb|].
    unfold between in *. change (starts (res_copy b')) with (starts b'). change (stops (res_copy a')) with (stops a'). rewrite P1, Q2. exact Cn.
  - cbn [res_copy r_start]. rewrite V1. exact Da.
  - cbn [res_copy r_start]. rewrite V2. exact Db.
  - exists m, rest. split; [exact Em|]. destruct Rg as (pa & pb & A1 & A2 & Rg). cbv zeta in Rg. cbn [r_start res_copy] in A1, A2. rewrite V1, (pc_date_denotes _ _ Da Ra) in A1. rewrite V2, (pc_date_denotes _ _ Db Rb) in A2.
    injection A1 as <-. injection A2 as <-. rewrite moment_order in Rg. unfold later.
    assert (Ga : forall v, r_tags (res_copy (res_copy a')) TExtractTZ = Some v -> v = false).
    { intros v Ev. cbn [r_tags res_copy] in Ev. specialize (G1 TExtractTZ). rewrite Ta, tag_is_tags, Ev in G1. exact G1. }
    assert (Gc : forall x, tag_is TExtractTZ (res_copy x) = tag_is TExtractTZ x) by (intros x; rewrite !tag_is_tags; reflexivity).
    destruct (sec_count tb <? sec_count ta); destruct Rg as (M1 & M2 & M3 & _ & _ & _ & M4); cbn [r_start res_copy] in M1, M3.
    + apply toDate_range; auto; [rewrite M1, V1; exact Da|rewrite M4|rewrite M3, V1; exact Da].
      destruct (r_tags (res_copy (res_copy a')) TExtractTZ) as [v|]; [apply Ga; reflexivity|]. rewrite !Gc, G1, Ta. reflexivity.
    + apply toDate_range; auto; [rewrite M1, V1; exact Da|rewrite M4|rewrite M3, V2; exact Db].
      destruct (r_tags (res_copy (res_copy a')) TExtractTZ) as [v|]; [apply Ga; reflexivity|]. rewrite !Gc, G2, Tb. reflexivity.
Qed.
Lemma refined_unmerged_first text a b ta : no_zone text a -> no_zone text b -> res_copy a = a -> res_copy b = b ->
  unmerged a b -> has_end a = false -> denotes (r_start a) ta -> real_moment ta -> tag_is TExtractTZ a = false ->
  MergeFacts.solid text a -> MergeFacts.solid text b -> Z.of_nat (List.length text) < 2 ^ 31 -> (forall w, In w connectors -> ~ occurs w (between text a b)) ->
  exists m rest, (rs <- tz_refine [a; b] text ;; rs <- mdt_refine rs text ;; mdr_refine rs text) = Ret (m :: rest) /\ toDate m = Ret (bs (written ta)).
Proof.
  intros Za Zb Ca Cb Um Ea Da Ra Ta Sa Sb L Cn. rewrite tz_refine_total. cbn [bind map]. rewrite Ca, Cb.
  pose proof (proj1 (tz_one_spec text a) Za) as S1. pose proof (proj1 (tz_one_spec text b) Zb) as S2. cbv zeta in S1, S2.
  set (a' := res_copy (tz_one tz_re text a)) in *. set (b' := res_copy (tz_one tz_re text b)) in *.
  destruct (same_stops _ _ S1) as (P1 & P2 & P3). destruct (same_stops _ _ S2) as (Q1 & Q2 & Q3).
  destruct S1 as (_ & _ & _ & V1 & H1 & _ & G1). destruct S2 as (_ & _ & _ & V2 & _).
  assert (Nb : isEmpty b' = false). { destruct Sb as (_ & Sb & _). apply filled_nonempty. intros E. unfold textLength in Q3, Sb. rewrite E in Q3. cbn [List.length] in Q3. clear - Q3 Sb. lia. }
  rewrite (mdt_unmerged text a' b'); [|unfold unmerged, hour_and_month; rewrite V1, V2; exact Um|exact Nb]. cbn [bind].
  rewrite (mdr_unlinked text (res_copy a') (res_copy b')); [| | |exact L|].
  - exists (res_copy (res_copy a')), [res_copy (res_copy a')]. split; [reflexivity|]. rewrite !(toDate_same _ _ (same_copy _)). apply toDate_start; auto; [rewrite V1; exact Da| |rewrite H1; exact Ea]. rewrite G1. exact Ta.
  - unfold MergeFacts.solid. change (starts (res_copy a')) with (starts a'). change (stops (res_copy a')) with (stops a'). change (textLength (res_copy a')) with (textLength a'). rewrite P1, P2, P3. exact Sa.
  - unfold MergeFacts.solid. change (starts (res_copy b')) with (starts b'). change (stops (res_copy b')) with (stops b'). change (textLength (res_copy b')) with (textLength b'). rewrite Q1, Q2, Q3. exact Sb.
  - intros (_ & _ & w & Iw & O). apply (Cn w Iw). unfold between in *. change (starts (res_copy b')) with (starts b') in O. change (stops (res_copy a')) with (stops a') in O. rewrite P1, Q2 in O. exact O.
Qed.
Lemma pair_between e sortf text ref p1 p2 pre w1 mid w2 post ans (P1 P2 : result -> Prop) : sane e -> is_sort sortf -> Z.of_nat (List.length text) < 2 ^ 31 ->
  to_lower text = pre ++ w1 ++ mid ++ w2 ++ post -> In p1 parsers -> In p2 parsers -> w1 <> [] -> w2 <> [] ->
  (forall l, alone e p1 text ref = Ret l -> exists r k, In r l /\ (getIndex r = Z.of_nat (List.length pre) /\ textLength r = Z.of_nat (List.length w1 + k) /\ (k <= List.length mid)%nat) /\ tag_is TTimeExpression r = false /\ P1 r) ->
  (forall l, alone e p2 text ref = Ret l -> exists r k, In r l /\ (getIndex r = Z.of_nat (List.length (pre ++ w1 ++ mid)) /\ textLength r = Z.of_nat (List.length w2 + k)) /\ tag_is TTimeExpression r = false /\ P2 r) ->
  only_two e text ref p1 p2 pre w1 mid w2 ->
  (forall a b, P1 a -> P2 b -> no_zone (to_lower text) a -> no_zone (to_lower text) b -> res_copy a = a -> res_copy b = b -> tag_is TExtractTZ a = false -> tag_is TExtractTZ b = false ->
     Z.of_nat (List.length (to_lower text)) < 2 ^ 31 -> 0 <= starts a -> 0 < textLength a -> 0 < textLength b -> stops a <= starts b -> stops b <= Z.of_nat (List.length (to_lower text)) ->
     (exists k, textLength a = Z.of_nat (List.length w1 + k) /\ between (to_lower text) a b = skipn k mid) ->
     exists m rest, (rs <- tz_refine [a; b] (to_lower text) ;; rs <- mdt_refine rs (to_lower text) ;; mdr_refine rs (to_lower text)) = Ret (m :: rest) /\ toDate m = Ret ans) ->
  main e sortf gwords_init text ref = Ret (line ans).
Proof.
  intros He Hs Hn E Jp1 Jp2 Nw1 Nw2 F1 F2 Al Fin.
  assert (Hn2 : Z.of_nat (List.length text) < 2 ^ 32) by (clear - Hn; lia).
  destruct (Al p1 Jp1) as (l1 & El1 & B1). destruct (Al p2 Jp2) as (l2 & El2 & B2).
  destruct (F1 l1 El1) as (a & k1 & Ia & (Ix & La & Lk) & Ua & Pa).
  destruct (F2 l2 El2) as (b & k2 & Ib & (Iy & Lb) & Ub & Pb).
  assert (Ll : List.length (to_lower text) = List.length text) by (unfold to_lower; apply map_length).
  rewrite !app_length in Iy.
  assert (Lw1 : (0 < List.length w1)%nat) by (destruct w1; [congruence|cbn [List.length]; clear; lia]). assert (Lw2 : (0 < List.length w2)%nat) by (destruct w2; [congruence|cbn [List.length]; clear; lia]).
  assert (Apart : getIndex a + textLength a <= getIndex b) by (rewrite Ix, Iy, La; clear - Lk; lia).
  assert (A : exists rs, all_alone e parsers text ref = Ret rs).
  { assert (Q : exists rss, Forall2 (fun p l => alone e p text ref = Ret l) parsers rss).
    { assert (Al' : forall p, In p parsers -> exists l, alone e p text ref = Ret l) by (intros q0 Iq; destruct (Al q0 Iq) as (l & El & _); eexists; exact El).
      revert Al'. clear. generalize parsers as ps. induction ps as [|p ps IH]; intros Al; [exists []; constructor|]. destruct (Al p (or_introl eq_refl)) as (l & El).
      destruct IH as [rss F]; [intros q' I'; apply Al; right; exact I'|]. exists (l :: rss). constructor; assumption. }
    destruct Q as [rss F]. exists (List.concat rss). apply all_alone_ret. eauto. }
  destruct A as [rs A].
  assert (Ira : In a rs) by (apply (all_alone_in _ _ _ _ _ A); exists p1, l1; split; [exact Jp1|split; [exact El1|exact Ia]]).
  assert (Irb : In b rs) by (apply (all_alone_in _ _ _ _ _ A); exists p2, l2; split; [exact Jp2|split; [exact El2|exact Ib]]).
  assert (Cp : forall x, In x rs -> res_copy x = x).
  { intros x Ixx. apply (all_alone_in _ _ _ _ _ A) in Ixx as (p0 & l & Ip0 & Xp & Il). pose proof (execute_copies _ _ _ _ _ _ Xp) as E0.
    clear - E0 Il. induction l as [|y l IH]; [contradiction|]. cbn [map] in E0. injection E0 as E1 E2. destruct Il as [<-|Il]; auto. }
  assert (Bound : forall l r, in_order (Z.of_nat (List.length text)) l -> In r l -> getIndex r + textLength r <= Z.of_nat (List.length text)).
  { clear. intros l r O It. induction O as [|x l H1 H2 H3 O IH]; [contradiction|]. destruct It as [<-|It]; [exact H2|exact (IH It)]. }
  pose proof (C13_results_in_order _ _ _ _ _ _ He (in_all _ Jp1) Hn2 El1) as O1. pose proof (C13_results_in_order _ _ _ _ _ _ He (in_all _ Jp2) Hn2 El2) as O2.
  pose proof (Bound _ _ O1 Ia) as Ba. pose proof (Bound _ _ O2 Ib) as Bb.
  rewrite (main_two e sortf text ref rs a b He Hs A Ira Irb Apart).
  - destruct (Fin a b Pa Pb) as (m & ms & M1 & M2); auto.
    + apply untimed_no_zone. exact Ua.
    + apply untimed_no_zone. exact Ub.
    + apply (C73_no_refiner_tag e p1 gwords_init text ref l1 a TExtractTZ He (in_all _ Jp1) El1 Ia). left. reflexivity.
    + apply (C73_no_refiner_tag e p2 gwords_init text ref l2 b TExtractTZ He (in_all _ Jp2) El2 Ib). left. reflexivity.
    + rewrite Ll. exact Hn.
    + unfold starts. clear - Ix. lia.
    + clear - La Lw1. lia.
    + clear - Lb Lw2. lia.
    + rewrite Ll. exact Bb.
    + exists k1. split; [exact La|]. unfold between, stops, starts. replace (getIndex a + textLength a <=? getIndex b) with true by (clear - Apart; lia).
      replace (Z.to_nat (getIndex a + textLength a)) with (List.length (pre ++ w1) + k1)%nat by (rewrite !app_length, Ix, La; clear; lia).
      replace (Z.to_nat (getIndex b - (getIndex a + textLength a))) with (List.length mid - k1)%nat by (rewrite Ix, Iy, La; clear - Lk; lia).
      replace (to_lower text) with ((pre ++ w1) ++ mid ++ w2 ++ post) by (rewrite E, <- !app_assoc; reflexivity).
      rewrite skip_tail, skipn_app, firstn_app, skipn_length, Nat.sub_diag, firstn_O, app_nil_r, firstn_all2 by (rewrite skipn_length; clear; lia). reflexivity.
    + rewrite M1. cbn [bind show]. rewrite M2. reflexivity.
  - intros r Irr. apply (all_alone_in _ _ _ _ _ A) in Irr as (p0 & l0 & Ip0 & X0 & Il0). destruct (Al p0 Ip0) as (l & El & Bl). unfold alone in X0. rewrite El in X0. apply RelativeFacts.ret_inj in X0. subst l0.
    assert (T0 : 0 < textLength r). { pose proof (result_text _ _ _ _ _ _ _ He (in_all _ Ip0) El Il0) as T0. unfold textLength. destruct (r_text r); [congruence|cbn [List.length]; clear; lia]. }
    destruct (Bl r Il0) as [(B3 & [-> | B4])|(B3 & [-> | B4])].
    + left. rewrite El1 in El. apply RelativeFacts.ret_inj in El. subst l. apply (in_order_unique (Z.of_nat (List.length text)) l1); auto; clear - La Ix Lw1 B3; lia.
    + right. right. left. clear - La Ix Lw1 B3 B4. lia.
    + right. left. rewrite El2 in El. apply RelativeFacts.ret_inj in El. subst l. apply (in_order_unique (Z.of_nat (List.length text)) l2); auto; clear - Lb Iy Lw2 B3; lia.
    + right. right. right. clear - Lb Iy Lw2 B3 B4. lia.
Qed.

(** ** The result for a phrase *)
Lemma says_head t p pre w post mo : phrase_says t p pre w post mo -> exists c v, w = c :: v /\ is_space c = false.
Proof.
  intros Ps.
  assert (Dg : forall x, is_digit x = true -> is_space x = false) by (intros x; destruct x as [[] [] [] [] [] [] [] []]; try reflexivity; discriminate).
  assert (Yh : forall yy mm dd r, date_loose yy mm dd -> exists c v, ymd_text yy mm dd ++ r = c :: v /\ is_space c = false).
  { intros yy mm dd r (D & L & _). destruct yy as [|c yy]; [discriminate L|]. inversion D; subst. eexists c, _. split; [reflexivity|]. auto. }
  destruct Ps; try (eexists _, _; split; [reflexivity|reflexivity]).
  - match goal with X : _ \/ _ |- _ => destruct X as [-> | ->] end; eexists _, _; split; reflexivity.
  - match goal with X : deadline_phrase _ _ _ |- _ => destruct X as (kw & s1 & s2 & -> & [-> | ->] & _) end; eexists _, _; split; reflexivity.
  - match goal with X : deadline_phrase _ _ _ |- _ => destruct X as (kw & s1 & s2 & -> & [-> | ->] & _) end; eexists _, _; split; reflexivity.
  - rewrite <- (app_nil_r (ymd_text yy mm dd)). eauto.
  - eauto.
  - assert (Q : forallb (fun x => match bs (fst x) with c :: _ => negb (is_space c) | [] => false end) plain_names = true) by (vm_compute; reflexivity). rewrite forallb_forall in Q.
    match goal with I : In (?z, ?q) plain_names |- _ => specialize (Q _ I) end. cbn [fst] in Q. destruct (bs x) as [|c0 v]; [discriminate Q|]. eexists c0, _. split; [reflexivity|]. destruct (is_space c0); [discriminate Q|reflexivity].
  - match goal with X : way _ _ |- _ => destruct X as [[-> _]|[-> _]] end; eexists _, _; split; reflexivity.
Qed.
Lemma plain_rest e p text t us pre w post l a s : sane e -> Z.of_nat (List.length text) < 2 ^ 32 -> to_lower text = pre ++ w ++ post -> In p [casual_date; casual_time; deadline; iso; holiday; week] -> alone e p text (ptime_of t us) = Ret l -> In a l ->
  stands a pre (w ++ s) -> exists b, post = s ++ b.
Proof.
  intros He Hn E Ip El Ia Sa. pose proof (plain_in p Ip) as Jp.
  assert (Lo : firstn (Z.to_nat (textLength a)) (skipn (Z.to_nat (getIndex a)) (to_lower text)) = r_text a).
  { apply (C14_located e p gwords_init text (ptime_of t us) l a He (in_all _ Jp)); auto; intros ->; cbn in Ip; destruct Ip as [X|[X|[X|[X|[X|[X|[]]]]]]]; discriminate X. }
  pose proof Sa as [S1 S2]. unfold textLength in Lo. rewrite S1, S2, !Nat2Z.id, E, skipn_app, skipn_all2 in Lo by (clear; lia). rewrite Nat.sub_diag in Lo. cbn [skipn app] in Lo.
  rewrite app_length, firstn_app, firstn_all2 in Lo by (clear; lia). apply app_inv_head in Lo. replace (List.length w + List.length s - List.length w)%nat with (List.length s) in Lo by (clear; lia).
  exists (skipn (List.length s) post). rewrite <- Lo at 1. symmetry. apply firstn_skipn.
Qed.
Lemma fixed_parser t p pre w post m : fixed_says t p pre w post m -> In p firm.
Proof. intros F. destruct F; cbn; tauto. Qed.
Lemma phrase_located e text t us p pre w post m l : sane e -> real_instant t us -> neighbours (mdate t) -> Z.of_nat (List.length text) < 2 ^ 32 ->
  to_lower text = pre ++ w ++ post -> separate pre post -> phrase_says t p pre w post m -> real_moment m -> alone e p text (ptime_of t us) = Ret l ->
  exists r s b, In r l /\ stands r pre (w ++ s) /\ blanks s /\ post = s ++ b /\ has_end r = false /\ denotes (r_start r) m /\ tag_is TTimeExpression r = false /\ (fixed_says t p pre w post m -> hour_and_month r).
Proof.
  intros He H N Hn E Sp Ps Rm El. destruct (says_parser _ _ _ _ _ _ Ps) as (_ & Ip).
  destruct (phrase_found e text t us p pre w post m l He H N Hn E Sp Ps Rm El) as (a & s & Ia & Sa & Bs & Ea & Da).
  destruct (plain_rest e p text t us pre w post l a s He Hn E Ip El Ia Sa) as [b Eb]. exists a, s, b.
  split; [exact Ia|]. split; [exact Sa|]. split; [exact Bs|]. split; [exact Eb|]. split; [exact Ea|]. split; [exact Da|]. split; [exact (plain_untimed e p text _ l a He Ip El Ia)|].
  intros Fx. split; [|exact (firm_month e text t us p pre w post m l a s He H N Hn E Sp Ps (fixed_parser _ _ _ _ _ _ Fx) El Ia Sa)].
  destruct (fixed_found e text t us p pre w post m l He H N Hn E Sp Fx Rm El) as (r' & I' & St' & _ & _ & Hh).
  assert (r' = a) as <-; [|exact Hh]. apply (sole e p text (ptime_of t us) l a r' He (in_all _ (plain_in p Ip)) Hn El Ia I'). destruct Sa as [-> _], St' as [-> _]. reflexivity.
Qed.

(** C125.  A text contains two phrases as in C92, one of which has its own hour ("now", an ISO date with a time, a holiday), a connecting word ("and", "to", "through", "-", even inside another word)
    somewhere between them, and nothing else is recognised.  The program prints the range from the first to the second; if the second is the earlier one, it prints the first twice. *)
Theorem C125_range_with_own_hour : forall e sortf text t us p1 p2 pre w1 mid w2 post m1 m2, sane e -> is_sort sortf -> real_instant t us -> neighbours (mdate t) -> Z.of_nat (List.length text) < 2 ^ 31 ->
  to_lower text = pre ++ w1 ++ mid ++ w2 ++ post -> separate pre (mid ++ w2 ++ post) -> separate (pre ++ w1 ++ mid) post ->
  phrase_says t p1 pre w1 (mid ++ w2 ++ post) m1 -> phrase_says t p2 (pre ++ w1 ++ mid) w2 post m2 -> real_moment m1 -> real_moment m2 ->
  fixed_says t p1 pre w1 (mid ++ w2 ++ post) m1 \/ fixed_says t p2 (pre ++ w1 ++ mid) w2 post m2 ->
  (exists v, In v connectors /\ occurs v mid) -> only_two e text (ptime_of t us) p1 p2 pre w1 mid w2 ->
  main e sortf gwords_init text (ptime_of t us) = Ret (line (bs (written m1 ++ " - " ++ written (later m1 m2))%string)).
Proof.
  intros e sortf text t us p1 p2 pre w1 mid w2 post m1 m2 He Hs H N Hn E Sp1 Sp2 Ps1 Ps2 R1 R2 Fx Nc Al.
  assert (Hn2 : Z.of_nat (List.length text) < 2 ^ 32) by (clear - Hn; lia).
  assert (E2 : to_lower text = (pre ++ w1 ++ mid) ++ w2 ++ post) by (rewrite E, <- !app_assoc; reflexivity).
  destruct (says_parser _ _ _ _ _ _ Ps1) as (Nw1 & Ip1). destruct (says_parser _ _ _ _ _ _ Ps2) as (Nw2 & Ip2).
  apply (pair_between e sortf text (ptime_of t us) p1 p2 pre w1 mid w2 post (bs (written m1 ++ " - " ++ written (later m1 m2))%string)
    (fun r => has_end r = false /\ denotes (r_start r) m1 /\ (exists s b, blanks s /\ mid ++ w2 ++ post = s ++ b /\ textLength r = Z.of_nat (List.length (w1 ++ s))) /\ (fixed_says t p1 pre w1 (mid ++ w2 ++ post) m1 -> hour_and_month r))
    (fun r => has_end r = false /\ denotes (r_start r) m2 /\ (fixed_says t p2 (pre ++ w1 ++ mid) w2 post m2 -> hour_and_month r))); auto.
  - exact (plain_in p1 Ip1).
  - exact (plain_in p2 Ip2).
  - intros l El. destruct (phrase_located e text t us p1 pre w1 _ m1 l He H N Hn2 E Sp1 Ps1 R1 El) as (r & s & b & I & St & Bs & Ep & En & D & U & Hf).
    exists r, (List.length s). destruct St as [S1 S2]. assert (Lr : textLength r = Z.of_nat (List.length (w1 ++ s))) by (unfold textLength; rewrite S2; reflexivity).
    split; [exact I|]. split; [split; [exact S1|]; split; [rewrite Lr, app_length; reflexivity|exact (blank_room _ _ _ _ _ Bs (says_head _ _ _ _ _ _ Ps2) Ep)]|]. split; [exact U|]. split; [exact En|]. split; [exact D|]. split; [|exact Hf].
    exists s, b. auto.
  - intros l El. destruct (phrase_located e text t us p2 _ w2 post m2 l He H N Hn2 E2 Sp2 Ps2 R2 El) as (r & s & b & I & St & Bs & Ep & En & D & U & Hf).
    exists r, (List.length s). destruct St as [S1 S2]. split; [exact I|]. split; [split; [exact S1|]; unfold textLength; rewrite S2, app_length; reflexivity|]. auto.
  - intros a b (Ea & Da & (s & r & Bs & Ep & La) & Fa) (Eb & Db & Fb) Za Zb Ca Cb Ta Tb L S0 Pa Pb Apart Sb (k & Lk & Bt).
    assert (Ek : k = List.length s) by (rewrite La, app_length in Lk; clear - Lk; lia). subst k.
    assert (Um : unmerged a b) by (destruct Fx as [Fx|Fx]; [left; exact (Fa Fx)|right; exact (Fb Fx)]).
    assert (Sa : MergeFacts.solid (to_lower text) a) by (unfold MergeFacts.solid; unfold stops, starts in *; clear - S0 Pa Pb Apart Sb; lia).
    assert (Sb' : MergeFacts.solid (to_lower text) b) by (unfold MergeFacts.solid; unfold stops, starts in *; clear - S0 Pa Pb Apart Sb; lia).
    apply (refined_unmerged_range (to_lower text) a b m1 m2); auto. rewrite Bt. destruct Nc as (v & Iv & O).
    destruct (blank_prefix s r mid v (w2 ++ post) Bs Ep Iv O) as (m & Em & Om). exists v. split; [exact Iv|]. rewrite Em, skipn_app, skipn_all, Nat.sub_diag. exact Om.
Qed.
Print Assumptions C125_range_with_own_hour.

(** C126.  The same without a connecting word between them: only the first is printed. *)
Theorem C126_first_with_own_hour : forall e sortf text t us p1 p2 pre w1 mid w2 post m1 m2, sane e -> is_sort sortf -> real_instant t us -> neighbours (mdate t) -> Z.of_nat (List.length text) < 2 ^ 31 ->
  to_lower text = pre ++ w1 ++ mid ++ w2 ++ post -> separate pre (mid ++ w2 ++ post) -> separate (pre ++ w1 ++ mid) post ->
  phrase_says t p1 pre w1 (mid ++ w2 ++ post) m1 -> phrase_says t p2 (pre ++ w1 ++ mid) w2 post m2 -> real_moment m1 -> real_moment m2 ->
  fixed_says t p1 pre w1 (mid ++ w2 ++ post) m1 \/ fixed_says t p2 (pre ++ w1 ++ mid) w2 post m2 ->
  (forall v, In v connectors -> ~ occurs v mid) -> only_two e text (ptime_of t us) p1 p2 pre w1 mid w2 ->
  main e sortf gwords_init text (ptime_of t us) = Ret (line (bs (written m1))).
Proof.
  intros e sortf text t us p1 p2 pre w1 mid w2 post m1 m2 He Hs H N Hn E Sp1 Sp2 Ps1 Ps2 R1 R2 Fx Nc Al.
  assert (Hn2 : Z.of_nat (List.length text) < 2 ^ 32) by (clear - Hn; lia).
  assert (E2 : to_lower text = (pre ++ w1 ++ mid) ++ w2 ++ post) by (rewrite E, <- !app_assoc; reflexivity).
  destruct (says_parser _ _ _ _ _ _ Ps1) as (Nw1 & Ip1). destruct (says_parser _ _ _ _ _ _ Ps2) as (Nw2 & Ip2).
  apply (pair_between e sortf text (ptime_of t us) p1 p2 pre w1 mid w2 post (bs (written m1))
    (fun r => has_end r = false /\ denotes (r_start r) m1 /\ (exists s b, blanks s /\ mid ++ w2 ++ post = s ++ b /\ textLength r = Z.of_nat (List.length (w1 ++ s))) /\ (fixed_says t p1 pre w1 (mid ++ w2 ++ post) m1 -> hour_and_month r))
    (fun r => has_end r = false /\ denotes (r_start r) m2 /\ (fixed_says t p2 (pre ++ w1 ++ mid) w2 post m2 -> hour_and_month r))); auto.
  - exact (plain_in p1 Ip1).
  - exact (plain_in p2 Ip2).
  - intros l El. destruct (phrase_located e text t us p1 pre w1 _ m1 l He H N Hn2 E Sp1 Ps1 R1 El) as (r & s & b & I & St & Bs & Ep & En & D & U & Hf).
    exists r, (List.length s). destruct St as [S1 S2]. assert (Lr : textLength r = Z.of_nat (List.length (w1 ++ s))) by (unfold textLength; rewrite S2; reflexivity).
    split; [exact I|]. split; [split; [exact S1|]; split; [rewrite Lr, app_length; reflexivity|exact (blank_room _ _ _ _ _ Bs (says_head _ _ _ _ _ _ Ps2) Ep)]|]. split; [exact U|]. split; [exact En|]. split; [exact D|]. split; [|exact Hf].
    exists s, b. auto.
  - intros l El. destruct (phrase_located e text t us p2 _ w2 post m2 l He H N Hn2 E2 Sp2 Ps2 R2 El) as (r & s & b & I & St & Bs & Ep & En & D & U & Hf).
    exists r, (List.length s). destruct St as [S1 S2]. split; [exact I|]. split; [split; [exact S1|]; unfold textLength; rewrite S2, app_length; reflexivity|]. auto.
  - intros a b (Ea & Da & (s & r & Bs & Ep & La) & Fa) (Eb & Db & Fb) Za Zb Ca Cb Ta Tb L S0 Pa Pb Apart Sb (k & Lk & Bt).
    assert (Ek : k = List.length s) by (rewrite La, app_length in Lk; clear - Lk; lia). subst k.
    assert (Um : unmerged a b) by (destruct Fx as [Fx|Fx]; [left; exact (Fa Fx)|right; exact (Fb Fx)]).
    assert (Sa : MergeFacts.solid (to_lower text) a) by (unfold MergeFacts.solid; unfold stops, starts in *; clear - S0 Pa Pb Apart Sb; lia).
    assert (Sb' : MergeFacts.solid (to_lower text) b) by (unfold MergeFacts.solid; unfold stops, starts in *; clear - S0 Pa Pb Apart Sb; lia).
    apply (refined_unmerged_first (to_lower text) a b m1); auto. rewrite Bt. intros v Iv (x & y & Ex). apply (Nc v Iv). exists (firstn (List.length s) mid ++ x), y. rewrite <- (firstn_skipn (List.length s) mid) at 1. rewrite Ex, <- app_assoc. reflexivity.
Qed.
Print Assumptions C126_first_with_own_hour.

(** ** Cases *)
Example C125_case : let t := Moment (Cal 2024 2 27) 9 15 0 in let text := bs "We are away from now to next week, ok" in
  real_instant t 3 /\ neighbours (mdate t) /\ to_lower text = bs "we are away from " ++ bs "now" ++ bs " to " ++ bs "next week" ++ bs ", ok" /\
  separate (bs "we are away from ") (bs " to " ++ bs "next week" ++ bs ", ok") /\ separate (bs "we are away from " ++ bs "now" ++ bs " to ") (bs ", ok") /\
  fixed_says t casual_date (bs "we are away from ") (bs "now") (bs " to " ++ bs "next week" ++ bs ", ok") t /\
  phrase_says t week (bs "we are away from " ++ bs "now" ++ bs " to ") (bs "next week") (bs ", ok") (Moment (Cal 2024 3 5) 0 0 0) /\
  (exists v, In v connectors /\ occurs v (bs " to ")) /\ only_two strict_env text (ptime_of t 3) casual_date week (bs "we are away from ") (bs "now") (bs " to ") (bs "next week") /\
  main strict_env sort_stable gwords_init text (ptime_of t 3) = Ret (line (bs "2024-Feb-27 09:15:00 - 2024-Mar-05 00:00:00")).
Proof.
  cbv zeta. split; [inst|]. split; [exists (Cal 2024 2 26), (Cal 2024 2 28); inst|]. split; [reflexivity|]. split; [apply separate_dec; reflexivity|]. split; [apply separate_dec; reflexivity|]. split; [constructor|]. split.
  { apply (ps_week _ _ (bs "next") 1 (bs " ") [] [] 1 (bs "week")); [right; auto|repeat constructor|discriminate|constructor|left; reflexivity|apply not_after_dec; reflexivity| |concrete].
    intros _ sp b E Bs. destruct sp as [|x sp]; [discriminate E|]. cbn in E. injection E as E _. subst x. inversion Bs; discriminate. }
  split; [exists (bs "to"); split; [cbn; tauto|exists (bs " "), (bs " "); reflexivity]|].
  split; [apply two_only_ok; [exact same_cd|exact same_week|vm_compute; reflexivity]|vm_compute; reflexivity].
Qed.
Example C126_case : let t := Moment (Cal 2024 2 27) 9 15 0 in let text := bs "Due in 5 Days, or now?" in
  real_instant t 3 /\ neighbours (mdate t) /\ to_lower text = bs "due " ++ bs "in 5 days" ++ bs ", or " ++ bs "now" ++ bs "?" /\
  separate (bs "due ") (bs ", or " ++ bs "now" ++ bs "?") /\ separate (bs "due " ++ bs "in 5 days" ++ bs ", or ") (bs "?") /\
  phrase_says t deadline (bs "due ") (bs "in 5 days") (bs ", or " ++ bs "now" ++ bs "?") (Moment (Cal 2024 3 3) 0 0 0) /\
  fixed_says t casual_date (bs "due " ++ bs "in 5 days" ++ bs ", or ") (bs "now") (bs "?") t /\
  (forall v, In v connectors -> ~ occurs v (bs ", or ")) /\ only_two strict_env text (ptime_of t 3) deadline casual_date (bs "due ") (bs "in 5 days") (bs ", or ") (bs "now") /\
  main strict_env sort_stable gwords_init text (ptime_of t 3) = Ret (line (bs "2024-Mar-03 00:00:00")).
Proof.
  cbv zeta. split; [inst|]. split; [exists (Cal 2024 2 26), (Cal 2024 2 28); inst|]. split; [reflexivity|]. split; [apply separate_dec; reflexivity|]. split; [apply separate_dec; reflexivity|]. split.
  { apply (ps_deadline_date _ _ _ _ (bs "5") "days" UDay (Whole 5)); [|apply (sp_digits (bs "5")); [repeat constructor|discriminate]|cbn; tauto|concrete].
    exists (bs "in"), (bs " "), (bs " "). split; [reflexivity|]. split; [auto|]. repeat split; try discriminate; repeat constructor. }
  split; [constructor|].
  split. { intros v Iv. cbn in Iv. destruct Iv as [<-|[<-|[<-|[<-|[]]]]]; apply Alphabet.containsb_ok; vm_compute; reflexivity. }
  split; [apply two_only_ok; [exact same_dl|exact same_cd|vm_compute; reflexivity]|vm_compute; reflexivity].
Qed.
