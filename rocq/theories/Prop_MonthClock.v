(** * A month name and a clock time (C106, C107); two month names are not a range (C108) *)
From Verif Require Import Base Regex RegexParse Calendar Components Utils Execute Spec View ParserSpec PhraseSpec MonthSpec ClockSpec ClockTextSpec CalendarCycle CalendarFacts RegexFacts ResultFacts
  ExecuteFacts ParserRe MatchFacts LocateFacts HistoryFacts ParserFacts ZoneFacts MergeFacts ClockFacts FoundFacts OverlapFacts P_MonthName P_TimeExpression Prop_Casual Prop_Middle Prop_Found Refiners Main Prop_Execute Prop_Refine Prop_Tags
  MainFacts Prop_Main Prop_Answers Prop_Format Prop_Sentence Prop_ClockText Prop_ClockAnswer Prop_DateTime Prop_Range Prop_MonthName Prop_TimeDay.
From Coq Require Import ZifyBool ZifyNat ZifyN.
Open Scope string_scope.
Open Scope list_scope.
Open Scope Z_scope.

Lemma in_others_mn : In month_name other_parsers. Proof. cbn; tauto. Qed.
Lemma same_mn_other q : In q other_parsers -> beq (p_pattern q) (p_pattern month_name) = true -> q = month_name.
Proof. intros I E. cbn in I. repeat (destruct I as [<-|I]; [first [reflexivity|vm_compute in E; discriminate E]|]). contradiction. Qed.
Lemma spelt_nonempty mw m : month_spelt mw m -> mw <> [].
Proof. intros Ms. destruct (FoundMonth.head_letter _ _ Ms) as (c & v & -> & _). discriminate. Qed.
(** the result for a month name *)
Lemma month_result e text t us y lead mw m yr yo T l : sane e -> real_instant t us -> Z.of_nat (List.length text) < 2 ^ 32 ->
  to_lower text = y ++ lead ++ mw ++ yr ++ T -> month_spelt mw m -> year_part yr yo -> month_free y lead -> month_closed mw yo T -> alone e month_name text (ptime_of t us) = Ret l ->
  exists v res, month_year_is t m yo v /\ In res l /\ (getIndex res = Z.of_nat (List.length y) /\ textLength res = Z.of_nat (List.length (mw ++ yr))) /\ has_end res = false /\
    (real_date (Cal v m 1) -> denotes (r_start res) (Moment (Cal v m 1) 0 0 0)) /\ no_clock (r_start res) /\ is_certain Month (r_start res) = true /\ tag_is TTimeExpression res = false.
Proof.
  intros He H Hn Et Ms Y Fr Cl El. destruct (C102_month_names_stand e gwords_init text t us l y lead mw m yr yo T He H Hn Et Ms Y Fr Cl El) as (res & I & Ix & Tx & En & (S1 & S2 & U & Sy)).
  assert (V : forall f, In f [Hour; Min; Sec; TzOffset] -> api_get f (r_start res) = 0) by (intros f If; unfold untouched in U; rewrite Forall_forall in U; apply U; cbn in If |- *; tauto).
  assert (K : exists v, month_year_is t m yo v /\ (real_date (Cal v m 1) -> api_get Year (r_start res) = v)).
  { destruct yo as [[yy e0]|]; cbn [month_year_is].
    - exists (year_in_era e0 (decimal yy)). split; [reflexivity|]. intros [_ R]. unfold in_range_year in R. cbn [cy] in R. apply certain_value. apply Sy; [intros ->; cbn in R; lia|lia].
    - destruct Sy as (v & Nv & Hv). exists v. split; [exact Nv|]. intros _. exact (implied_value _ _ _ Hv). }
  destruct K as (v & Mv & Hv). exists v, res. split; [exact Mv|]. split; [exact I|]. split; [split; [exact Ix|unfold textLength; rewrite Tx; reflexivity]|]. split; [exact En|]. split; [|split; [|split]].
  - intros R. repeat split; [exact (Hv R)|exact (certain_value _ _ _ S1)|exact (implied_value _ _ _ S2)|apply (V Hour)|apply (V Min)|apply (V Sec)]; cbn; tauto.
  - apply (untouched_no_clock _ _ U); cbn; tauto.
  - apply S1.
  - exact (untimed_mn e text _ l res He El I).
Qed.

(** C106.  A text contains a month name (with or without a year) as in C102, later a clock time standing clear as in C93, no connecting word and no zone abbreviation
    after the time, and nothing else is recognised.  Then the program prints the first day of that month at that time.
    (The reported place of the month is that of the sign before it, so [only_pair] counts from there.) *)
Theorem C106_month_and_time : forall e sortf text t us y lead mw m yr yo mid c k q post h mi, sane e -> is_sort sortf -> real_instant t us -> Z.of_nat (List.length text) < 2 ^ 31 ->
  to_lower text = y ++ lead ++ mw ++ yr ++ mid ++ c ++ post -> month_spelt mw m -> year_part yr yo -> month_free y lead -> month_closed mw yo (mid ++ c ++ post) -> mid <> [] ->
  clock_words c k q -> clear_before (y ++ lead ++ mw ++ yr ++ mid) -> clear_after q post -> clock_time k h mi -> seconds_fine k -> on_clock (ck_mark k) h < 24 ->
  ~ zone_follows post -> (forall v, In v connectors -> ~ occurs v post) -> only_pair e text (ptime_of t us) month_name y (mw ++ yr) (lead ++ mid) c ->
  exists v, month_year_is t m yo v /\ (real_date (Cal v m 1) -> main e sortf gwords_init text (ptime_of t us) = Ret (line (bs (written (day_moment (Cal v m 1) k h mi))))).
Proof.
  intros e sortf text t us y lead mw m yr yo mid c k q post h mi He Hs H Hn E Ms Y Fr Cl Nm Cw Cb Ca Ct Sf H24 Nz Nc Al.
  assert (Hn2 : Z.of_nat (List.length text) < 2 ^ 32) by (clear - Hn; lia).
  destruct (proj2 Al month_name in_others_mn) as (l & El & _).
  destruct (month_result e text t us y lead mw m yr yo (mid ++ c ++ post) l He H Hn2 E Ms Y Fr Cl El) as (v & r & Mv & I & Pl & En & D & N & _ & U).
  exists v. split; [exact Mv|]. intros Rd. specialize (D Rd).
  set (n := List.length (mw ++ yr)). set (w := firstn n (lead ++ mw ++ yr)). set (mid' := skipn n (lead ++ mw ++ yr) ++ mid).
  assert (Lw : List.length w = n) by (unfold w; rewrite firstn_length, app_length; fold n; lia).
  assert (Lm : List.length mid' = List.length (lead ++ mid)) by (unfold mid'; rewrite !app_length, skipn_length, app_length; fold n; lia).
  assert (Ej : w ++ mid' = lead ++ mw ++ yr ++ mid) by (unfold w, mid'; rewrite app_assoc, firstn_skipn, <- !app_assoc; reflexivity).
  apply (pair_main e sortf text t us month_name y w mid' c k q post); auto.
  - rewrite E. rewrite (app_assoc w), Ej, <- !app_assoc. reflexivity.
  - exact in_others_mn.
  - exact in_parsers_mn.
  - intros Q. rewrite Q in Lw. cbn in Lw. pose proof (spelt_nonempty _ _ Ms). unfold n in Lw. rewrite app_length in Lw. destruct mw; [congruence|cbn in Lw; lia].
  - intros Q. rewrite Q in Lm. cbn in Lm. rewrite app_length in Lm. destruct mid; [congruence|cbn in Lm; lia].
  - intros l' El'. unfold alone in El'. rewrite El in El'. apply RelativeFacts.ret_inj in El'. subst l'. exists r. split; [exact I|]. rewrite Lw. split; [exact Pl|]. split; [exact En|]. split; [|split; assumption].
    destruct D as (D1 & D2 & D3 & _). split; [exact D1|]. split; [exact D2|exact D3].
  - rewrite Ej. exact Cb.
  - unfold only_pair in *. rewrite Lw, Lm. exact Al.
Qed.
Print Assumptions C106_month_and_time.

(** C107.  The same with the time first.  The program looks for connecting words from where it believes the month ends, which is too early by the length of what
    stands before the name: [believed_rest]. *)
Definition believed_rest (lead w post : bytes) : bytes := skipn (List.length w) (lead ++ w) ++ post.
Theorem C107_time_and_month : forall e sortf text t us pre c k q mid lead mw m yr yo post h mi, sane e -> is_sort sortf -> real_instant t us -> Z.of_nat (List.length text) < 2 ^ 31 ->
  to_lower text = pre ++ c ++ mid ++ lead ++ mw ++ yr ++ post -> month_spelt mw m -> year_part yr yo -> month_free (pre ++ c ++ mid) lead -> month_closed mw yo post -> mid <> [] ->
  clock_words c k q -> clear_before pre -> clear_after q (mid ++ lead ++ mw ++ yr ++ post) -> clock_time k h mi -> seconds_fine k -> on_clock (ck_mark k) h < 24 ->
  ~ zone_follows (mid ++ lead ++ mw ++ yr ++ post) -> (forall v, In v connectors -> ~ occurs v (believed_rest lead (mw ++ yr) post)) ->
  only_time_day e text (ptime_of t us) month_name pre c mid (mw ++ yr) ->
  exists v, month_year_is t m yo v /\ (real_date (Cal v m 1) -> main e sortf gwords_init text (ptime_of t us) = Ret (line (bs (written (day_moment (Cal v m 1) k h mi))))).
Proof.
  intros e sortf text t us pre c k q mid lead mw m yr yo post h mi He Hs H Hn E Ms Y Fr Cl Nm Cw Cb Ca Ct Sf H24 Nz Nc Al.
  assert (Hn2 : Z.of_nat (List.length text) < 2 ^ 32) by (clear - Hn; lia).
  assert (E2 : to_lower text = (pre ++ c ++ mid) ++ lead ++ mw ++ yr ++ post) by (rewrite E, <- !app_assoc; reflexivity).
  destruct (proj2 Al month_name in_others_mn) as (l & El & _).
  destruct (month_result e text t us (pre ++ c ++ mid) lead mw m yr yo post l He H Hn2 E2 Ms Y Fr Cl El) as (v & r & Mv & I & Pl & En & D & N & _ & U).
  exists v. split; [exact Mv|]. intros Rd. specialize (D Rd).
  set (n := List.length (mw ++ yr)). set (w := firstn n (lead ++ mw ++ yr)). set (post' := skipn n (lead ++ mw ++ yr) ++ post).
  assert (Lw : List.length w = n) by (unfold w; rewrite firstn_length, app_length; fold n; lia).
  assert (Ej : w ++ post' = lead ++ mw ++ yr ++ post) by (unfold w, post'; rewrite app_assoc, firstn_skipn, <- !app_assoc; reflexivity).
  apply (time_day_main e sortf text t us month_name pre c k q mid w post'); auto.
  - rewrite E, Ej. reflexivity.
  - exact in_others_mn.
  - exact in_parsers_mn.
  - intros Q. rewrite Q in Lw. cbn in Lw. pose proof (spelt_nonempty _ _ Ms). unfold n in Lw. rewrite app_length in Lw. destruct mw; [congruence|cbn in Lw; lia].
  - intros l' El'. unfold alone in El'. rewrite El in El'. apply RelativeFacts.ret_inj in El'. subst l'. exists r. split; [exact I|]. rewrite Lw. split; [exact Pl|]. split; [exact En|]. split; [|split; assumption].
    destruct D as (D1 & D2 & D3 & _). split; [exact D1|]. split; [exact D2|exact D3].
  - rewrite Ej. exact Ca.
  - rewrite Ej. exact Nz.
  - unfold only_time_day in *. rewrite Lw. exact Al.
Qed.
Print Assumptions C107_time_and_month.

(** ** C108: two month names are not a range *)
(** two dates with certain months and no connecting word where the program looks for one: only the first is shown *)
Lemma refined_apart text a b ta : no_zone text a -> no_zone text b -> res_copy a = a -> res_copy b = b ->
  is_certain Month (r_start a) = true -> is_certain Month (r_start b) = true -> has_end a = false -> denotes (r_start a) ta -> real_moment ta -> tag_is TExtractTZ a = false ->
  MergeFacts.solid text a -> MergeFacts.solid text b -> Z.of_nat (List.length text) < 2 ^ 31 -> (forall w, In w connectors -> ~ occurs w (between text a b)) ->
  exists m rest, (rs <- tz_refine [a; b] text ;; rs <- mdt_refine rs text ;; mdr_refine rs text) = Ret (m :: rest) /\ toDate m = Ret (bs (written ta)).
Proof.
  intros Za Zb Ca Cb Ma Mb Ea Da Ra Ta Sa Sb L Cn. rewrite tz_refine_total. cbn [bind map]. rewrite Ca, Cb.
  pose proof (proj1 (tz_one_spec text a) Za) as S1. pose proof (proj1 (tz_one_spec text b) Zb) as S2. cbv zeta in S1, S2.
  set (a' := res_copy (tz_one tz_re text a)) in *. set (b' := res_copy (tz_one tz_re text b)) in *.
  destruct (same_stops _ _ S1) as (P1 & P2 & P3). destruct (same_stops _ _ S2) as (Q1 & Q2 & Q3).
  destruct S1 as (_ & _ & _ & V1 & H1 & _ & G1). destruct S2 as (_ & _ & _ & V2 & _).
  assert (Nb : isEmpty b' = false). { destruct Sb as (_ & Sb & _). apply filled_nonempty. intros E. unfold textLength in Q3, Sb. rewrite E in Q3. cbn [List.length] in Q3. clear - Q3 Sb. lia. }
  rewrite (mdt_firm text a' b'); [|rewrite V1; exact Ma|rewrite V2; exact Mb|exact Nb]. cbn [bind].
  rewrite (mdr_unlinked text (res_copy a') (res_copy b')); [| | |exact L|].
  - exists (res_copy (res_copy a')), [res_copy (res_copy a')]. split; [reflexivity|]. rewrite !(toDate_same _ _ (same_copy _)). apply toDate_start; auto; [rewrite V1; exact Da| |rewrite H1; exact Ea]. rewrite G1. exact Ta.
  - unfold MergeFacts.solid. change (starts (res_copy a')) with (starts a'). change (stops (res_copy a')) with (stops a'). change (textLength (res_copy a')) with (textLength a'). rewrite P1, P2, P3. exact Sa.
  - unfold MergeFacts.solid. change (starts (res_copy b')) with (starts b'). change (stops (res_copy b')) with (stops b'). change (textLength (res_copy b')) with (textLength b'). rewrite Q1, Q2, Q3. exact Sb.
  - intros (_ & _ & w & Iw & O). apply (Cn w Iw). unfold between in *. change (starts (res_copy b')) with (starts b') in O. change (stops (res_copy a')) with (stops a') in O. rewrite P1, Q2 in O. exact O.
Qed.
Lemma apart_core e sortf text ref p1 p2 pre w1 mid w2 post m1 : sane e -> is_sort sortf -> Z.of_nat (List.length text) < 2 ^ 31 ->
  to_lower text = pre ++ w1 ++ mid ++ w2 ++ post -> In p1 parsers -> In p2 parsers -> w1 <> [] -> w2 <> [] ->
  (forall l, alone e p1 text ref = Ret l -> exists r k, In r l /\ (getIndex r = Z.of_nat (List.length pre) /\ textLength r = Z.of_nat (List.length w1 + k) /\ (k <= List.length mid)%nat) /\ has_end r = false /\ denotes (r_start r) m1 /\ is_certain Month (r_start r) = true /\ tag_is TTimeExpression r = false) ->
  (forall l, alone e p2 text ref = Ret l -> exists r k, In r l /\ (getIndex r = Z.of_nat (List.length (pre ++ w1 ++ mid)) /\ textLength r = Z.of_nat (List.length w2 + k)) /\ is_certain Month (r_start r) = true /\ tag_is TTimeExpression r = false) ->
  real_moment m1 -> (forall v, In v connectors -> ~ occurs v mid) -> only_two e text ref p1 p2 pre w1 mid w2 ->
  main e sortf gwords_init text ref = Ret (line (bs (written m1))).
Proof.
  intros He Hs Hn E Jp1 Jp2 Nw1 Nw2 F1 F2 R1 Nc Al.
  assert (Hn2 : Z.of_nat (List.length text) < 2 ^ 32) by (clear - Hn; lia).
  destruct (Al p1 Jp1) as (l1 & El1 & B1). destruct (Al p2 Jp2) as (l2 & El2 & B2).
  destruct (F1 l1 El1) as (a & k1 & Ia & (Ix & La & Lk) & Ea & Da & Ma & Ua).
  destruct (F2 l2 El2) as (b & k2 & Ib & (Iy & Lb) & Mb & Ub).
  assert (Ll : List.length (to_lower text) = List.length text) by (unfold to_lower; apply map_length).
  rewrite !app_length in Iy.
  assert (Lw1 : (0 < List.length w1)%nat) by (destruct w1; [congruence|cbn [List.length]; clear; lia]). assert (Lw2 : (0 < List.length w2)%nat) by (destruct w2; [congruence|cbn [List.length]; clear; lia]).
  assert (Apart : getIndex a + textLength a <= getIndex b) by (rewrite Ix, Iy, La; clear - Lk; lia).
  assert (A : exists rs, all_alone e parsers text ref = Ret rs).
  { assert (Q : exists rss, Forall2 (fun p l => alone e p text ref = Ret l) parsers rss).
    { assert (Al' : forall p, In p parsers -> exists l, alone e p text ref = Ret l) by (intros q0 Iq; destruct (Al q0 Iq) as (l & El & _); eexists; exact El).
      revert Al'. clear. generalize parsers as ps. induction ps as [|p ps IH]; intros Al; [exists []; constructor|]. destruct (Al p (or_introl eq_refl)) as (l & El).
      destruct IH as [rss F]; [intros q' I'; apply Al; right; exact I'|]. exists (l :: rss). constructor; assumption. }
    destruct Q as [rss F]. exists (List.concat rss). apply all_alone_ret. eauto. }
  destruct A as [rs A].
  assert (Ira : In a rs) by (apply (all_alone_in _ _ _ _ _ A); exists p1, l1; split; [exact Jp1|split; [exact El1|exact Ia]]).
  assert (Irb : In b rs) by (apply (all_alone_in _ _ _ _ _ A); exists p2, l2; split; [exact Jp2|split; [exact El2|exact Ib]]).
  assert (Cp : forall x, In x rs -> res_copy x = x).
  { intros x Ixx. apply (all_alone_in _ _ _ _ _ A) in Ixx as (p0 & l & Ip0 & Xp & Il). pose proof (execute_copies _ _ _ _ _ _ Xp) as E0.
    clear - E0 Il. induction l as [|y l IH]; [contradiction|]. cbn [map] in E0. injection E0 as E1 E2. destruct Il as [<-|Il]; auto. }
  assert (Bound : forall l r, in_order (Z.of_nat (List.length text)) l -> In r l -> getIndex r + textLength r <= Z.of_nat (List.length text)).
  { clear. intros l r O It. induction O as [|x l H1 H2 H3 O IH]; [contradiction|]. destruct It as [<-|It]; [exact H2|exact (IH It)]. }
  pose proof (C13_results_in_order _ _ _ _ _ _ He (in_all _ Jp1) Hn2 El1) as O1. pose proof (C13_results_in_order _ _ _ _ _ _ He (in_all _ Jp2) Hn2 El2) as O2.
  pose proof (Bound _ _ O1 Ia) as Ba. pose proof (Bound _ _ O2 Ib) as Bb.
  rewrite (main_two e sortf text ref rs a b He Hs A Ira Irb Apart).
  - destruct (refined_apart (to_lower text) a b m1) as (m & ms & M1 & M2); auto.
    + apply untimed_no_zone. exact Ua.
    + apply untimed_no_zone. exact Ub.
    + apply (C73_no_refiner_tag e p1 gwords_init text ref l1 a TExtractTZ He (in_all _ Jp1) El1 Ia). left. reflexivity.
    + unfold MergeFacts.solid, starts, stops. rewrite Ll. clear - Ix La Lw1 Ba. lia.
    + unfold MergeFacts.solid, starts, stops. rewrite Ll. clear - Iy Lb Lw2 Bb. lia.
    + rewrite Ll. exact Hn.
    + intros v Iv O. apply (Nc v Iv). revert O. unfold between, stops, starts. replace (getIndex a + textLength a <=? getIndex b) with true by (clear - Apart; lia).
      replace (Z.to_nat (getIndex a + textLength a)) with (List.length (pre ++ w1) + k1)%nat by (rewrite !app_length, Ix, La; clear; lia).
      replace (Z.to_nat (getIndex b - (getIndex a + textLength a))) with (List.length mid - k1)%nat by (rewrite Ix, Iy, La; clear - Lk; lia).
      replace (to_lower text) with ((pre ++ w1) ++ mid ++ w2 ++ post) by (rewrite E, <- !app_assoc; reflexivity).
      rewrite Prop_ClockAnswer.skip_tail, skipn_app, firstn_app, skipn_length, Nat.sub_diag, firstn_O, app_nil_r, firstn_all2 by (rewrite skipn_length; clear; lia).
      intros (p & q & Ep). exists (firstn k1 mid ++ p), q. rewrite <- (firstn_skipn k1 mid) at 1. rewrite Ep, <- app_assoc. reflexivity.
    + rewrite M1. cbn [bind show]. rewrite M2. reflexivity.
  - intros r Irr. apply (all_alone_in _ _ _ _ _ A) in Irr as (p0 & l0 & Ip0 & X0 & Il0). destruct (Al p0 Ip0) as (l & El & Bl). unfold alone in X0. rewrite El in X0. apply RelativeFacts.ret_inj in X0. subst l0.
    assert (T0 : 0 < textLength r). { pose proof (result_text _ _ _ _ _ _ _ He (in_all _ Ip0) El Il0) as T0. unfold textLength. destruct (r_text r); [congruence|cbn [List.length]; clear; lia]. }
    destruct (Bl r Il0) as [(B3 & [-> | B4])|(B3 & [-> | B4])].
    + left. rewrite El1 in El. apply RelativeFacts.ret_inj in El. subst l. apply (in_order_unique (Z.of_nat (List.length text)) l1); auto; clear - La Ix Lw1 B3; lia.
    + right. right. left. clear - La Ix Lw1 B3 B4. lia.
    + right. left. rewrite El2 in El. apply RelativeFacts.ret_inj in El. subst l. apply (in_order_unique (Z.of_nat (List.length text)) l2); auto; clear - Lb Iy Lw2 B3; lia.
    + right. right. right. clear - Lb Iy Lw2 B3 B4. lia.
Qed.

(** C108.  A text contains two month names (with or without years) as in C102 and nothing else is recognised.  The program looks for a connecting word from where it
    believes the first month to end to where it believes the second to begin.  If there is none there, it prints the first day of the first month, and nothing of the second. *)
Theorem C108_two_months : forall e sortf text t us y lead mw m yr yo mid lead2 mw2 m2 yr2 yo2 post, sane e -> is_sort sortf -> real_instant t us -> Z.of_nat (List.length text) < 2 ^ 31 ->
  to_lower text = y ++ lead ++ mw ++ yr ++ mid ++ lead2 ++ mw2 ++ yr2 ++ post ->
  month_spelt mw m -> year_part yr yo -> month_free y lead -> month_closed mw yo (mid ++ lead2 ++ mw2 ++ yr2 ++ post) ->
  month_spelt mw2 m2 -> year_part yr2 yo2 -> month_free (y ++ lead ++ mw ++ yr ++ mid) lead2 -> month_closed mw2 yo2 post ->
  (forall v, In v connectors -> ~ occurs v (believed_rest lead (mw ++ yr) mid)) ->
  only_two e text (ptime_of t us) month_name month_name y (mw ++ yr) (lead ++ mid) (mw2 ++ yr2) ->
  exists v, month_year_is t m yo v /\ (real_date (Cal v m 1) -> main e sortf gwords_init text (ptime_of t us) = Ret (line (bs (written (Moment (Cal v m 1) 0 0 0))))).
Proof.
  intros e sortf text t us y lead mw m yr yo mid lead2 mw2 m2 yr2 yo2 post He Hs H Hn E Ms Y Fr Cl Ms2 Y2 Fr2 Cl2 Nc Al.
  assert (Hn2 : Z.of_nat (List.length text) < 2 ^ 32) by (clear - Hn; lia).
  assert (E2 : to_lower text = (y ++ lead ++ mw ++ yr ++ mid) ++ lead2 ++ mw2 ++ yr2 ++ post) by (rewrite E, <- !app_assoc; reflexivity).
  destruct (Al month_name in_parsers_mn) as (l & El & _).
  destruct (month_result e text t us y lead mw m yr yo _ l He H Hn2 E Ms Y Fr Cl El) as (v & r & Mv & I & Pl & En & D & N & Mc & U).
  destruct (month_result e text t us _ lead2 mw2 m2 yr2 yo2 post l He H Hn2 E2 Ms2 Y2 Fr2 Cl2 El) as (v2 & r2 & _ & I2 & Pl2 & _ & _ & _ & Mc2 & U2).
  exists v. split; [exact Mv|]. intros Rd. specialize (D Rd).
  set (n := List.length (mw ++ yr)) in *. set (w := firstn n (lead ++ mw ++ yr)). set (mid' := skipn n (lead ++ mw ++ yr) ++ mid).
  set (n2 := List.length (mw2 ++ yr2)) in *. set (w2 := firstn n2 (lead2 ++ mw2 ++ yr2)). set (post' := skipn n2 (lead2 ++ mw2 ++ yr2) ++ post).
  assert (Lw : List.length w = n) by (unfold w; rewrite firstn_length, app_length; fold n; clear; lia). assert (Lw2 : List.length w2 = n2) by (unfold w2; rewrite firstn_length, app_length; fold n2; clear; lia).
  assert (Lm : List.length mid' = List.length (lead ++ mid)) by (unfold mid'; rewrite !app_length, skipn_length, app_length; fold n; clear; lia).
  assert (Ej : w ++ mid' = lead ++ mw ++ yr ++ mid) by (unfold w, mid'; rewrite app_assoc, firstn_skipn, <- !app_assoc; reflexivity).
  assert (Ej2 : w2 ++ post' = lead2 ++ mw2 ++ yr2 ++ post) by (unfold w2, post'; rewrite app_assoc, firstn_skipn, <- !app_assoc; reflexivity).
  assert (Np : (0 < n)%nat) by (unfold n; rewrite app_length; pose proof (spelt_nonempty _ _ Ms); destruct mw; [congruence|cbn; clear; lia]).
  assert (Np2 : (0 < n2)%nat) by (unfold n2; rewrite app_length; pose proof (spelt_nonempty _ _ Ms2); destruct mw2; [congruence|cbn; clear; lia]).
  apply (apart_core e sortf text (ptime_of t us) month_name month_name y w mid' w2 post' (Moment (Cal v m 1) 0 0 0)); auto using in_parsers_mn.
  - rewrite E. rewrite (app_assoc w), Ej, Ej2, <- !app_assoc. reflexivity.
  - intros Q. rewrite Q in Lw. cbn in Lw. clear - Lw Np. lia.
  - intros Q. rewrite Q in Lw2. cbn in Lw2. clear - Lw2 Np2. lia.
  - intros l' El'. unfold alone in El'. rewrite El in El'. apply RelativeFacts.ret_inj in El'. subst l'. exists r, 0%nat. rewrite Lw, Nat.add_0_r. split; [exact I|]. split; [destruct Pl; repeat split; auto; clear; lia|auto].
  - intros l' El'. unfold alone in El'. rewrite El in El'. apply RelativeFacts.ret_inj in El'. subst l'. exists r2, 0%nat. rewrite Lw2, Ej, Nat.add_0_r. auto 8.
  - apply midnight_real. exact Rd.
  - unfold only_two in *. rewrite Lw, Lm, Lw2. exact Al.
Qed.
Print Assumptions C108_two_months.

(** The last two characters of a month name or of a year with an era *)
Definition ends_two : list (ascii * ascii) :=
  [("r", "y"); ("c", "h"); ("i", "l"); ("a", "y"); ("n", "e"); ("l", "y"); ("s", "t"); ("e", "r"); ("a", "n"); ("e", "b"); ("a", "r"); ("p", "r"); ("u", "n"); ("u", "l"); ("u", "g"); ("e", "p"); ("p", "t"); ("c", "t"); ("o", "v"); ("e", "c");
   ("n", "."); ("b", "."); ("r", "."); ("l", "."); ("g", "."); ("p", "."); ("t", "."); ("v", "."); ("c", "."); ("y", "."); ("a", "d"); ("b", "c"); ("b", "e")]%char.
Definition two_ok (w : bytes) : bool := match rev w with b :: a :: _ => existsb (fun x => Ascii.eqb a (fst x) && Ascii.eqb b (snd x)) ends_two | _ => false end.
Lemma two_ok_in w z a b c : two_ok w = true -> c ++ [a; b] = z ++ w -> In (a, b) ends_two.
Proof.
  unfold two_ok. intros H E. destruct (rev w) as [|b' [|a' w']] eqn:R; try discriminate H. assert (Ew : w = rev w' ++ [a'; b']) by (rewrite <- (rev_involutive w), R; cbn; rewrite <- app_assoc; reflexivity).
  rewrite Ew in E. change [a; b] with ([a] ++ [b]) in E. change [a'; b'] with ([a'] ++ [b']) in E. rewrite !app_assoc in E. apply app_inj_tail in E as [E <-]. apply app_inj_tail in E as [_ <-].
  apply existsb_exists in H as ((x & x') & I & Q). cbn [fst snd] in Q. apply andb_prop in Q as [Q1 Q2]. apply Ascii.eqb_eq in Q1, Q2. subst. exact I.
Qed.
Lemma month_two w m : month_word w m -> two_ok w = true.
Proof.
  intros (s & [[I ->]|[I [-> | ->]]]).
  - exact (proj1 (forallb_forall (fun x => two_ok (bs (fst x))) month_names) ltac:(vm_compute; reflexivity) _ I).
  - exact (proj1 (forallb_forall (fun x => two_ok (bs (fst x))) month_short_names) ltac:(vm_compute; reflexivity) _ I).
  - exact (proj1 (forallb_forall (fun x => two_ok (bs (fst x) ++ bs ".")) month_short_names) ltac:(vm_compute; reflexivity) _ I).
Qed.
Lemma month_ends_two p a b : month_ends (p ++ [a; b]) -> In (a, b) ends_two.
Proof.
  intros (z & w & E & [(m & M)|[-> |(yy & sp & e & -> & _ & _ & _ & N)]]).
  - exact (two_ok_in w z a b p (month_two _ _ M) E).
  - exact (two_ok_in (bs "may.") z a b p eq_refl E).
  - rewrite (app_assoc yy), (app_assoc z) in E. destruct e; [congruence|..]; cbn [era_word] in E; [apply (two_ok_in (bs "ad") (z ++ yy ++ sp) a b p eq_refl)|apply (two_ok_in (bs "bc") (z ++ yy ++ sp) a b p eq_refl)|apply (two_ok_in (bs "be") (z ++ yy ++ sp) a b p eq_refl)]; exact E.
Qed.
Lemma no_month_end p a b : existsb (fun x => Ascii.eqb a (fst x) && Ascii.eqb b (snd x)) ends_two = false -> ~ month_ends (p ++ [a; b]).
Proof. intros H M. apply month_ends_two in M. assert (Q : existsb (fun x => Ascii.eqb a (fst x) && Ascii.eqb b (snd x)) ends_two = true) by (apply existsb_exists; exists (a, b); split; [exact M|cbn [fst snd]; rewrite !Ascii.eqb_refl; reflexivity]). congruence. Qed.
Lemma free_after y a x sp : existsb (fun z => Ascii.eqb a (fst z) && Ascii.eqb x (snd z)) ends_two = false -> is_space x = false -> is_digit x = false -> blanks sp -> sp <> [] -> ~ In "\"%char (y ++ [a; x] ++ sp) ->
  month_free (y ++ [a]) (x :: sp).
Proof.
  intros Ne Sx Dx B Ns Nb. right. split; [exists x, sp; split; [reflexivity|]; split; [exact Sx|]; split; [exact B|]; left; auto|]. split; [rewrite <- app_assoc; exact Nb|].
  intros x' sp' E. injection E as <- <-. rewrite <- app_assoc. exact (no_month_end y a x Ne).
Qed.

(** the characters of [w ++ yr] in the last two places *)
Definition calm (w : bytes) : Prop := ~ occurs (bs "to") w /\ ~ In "-"%char w /\ (List.length w <= 2)%nat.
Lemma solid_prefix v : forall q b u, (forall x, In x v -> x <> " "%char) -> q ++ " "%char :: u = v ++ b -> exists b', q = v ++ b'.
Proof.
  induction v as [|d v IH]; intros q b u K E; [exists q; reflexivity|]. destruct q as [|x q]; cbn [app] in E; injection E as E1 E2; [exfalso; apply (K d (or_introl eq_refl)); congruence|]. subst x.
  destruct (IH q b u) as (b' & ->); [intros z Iz; apply K; right; exact Iz|exact E2|]. exists b'. reflexivity.
Qed.
Lemma occurs_parts v u : (forall x, In x v -> x <> " "%char) -> v <> [] -> forall p, occurs v (p ++ " "%char :: u) -> occurs v p \/ occurs v u.
Proof.
  intros K Nv p (a & b & E). revert a E. induction p as [|x p IH]; intros a E.
  - destruct a as [|x a]; cbn [app] in E; [|injection E as _ E; right; exists a, b; exact E]. exfalso. destruct v as [|d v]; [congruence|]. cbn [app] in E. injection E as E1 _. apply (K d (or_introl eq_refl)). congruence.
  - destruct a as [|x' a].
    + left. cbn [app] in E. destruct (solid_prefix v (x :: p) b u K E) as (b' & ->). exists [], b'. reflexivity.
    + cbn [app] in E. injection E as <- E. destruct (IH a E) as [(a1 & b1 & ->)|Q]; [left; exists (x :: a1), b1; reflexivity|right; exact Q].
Qed.
Lemma calm_rest w u v : calm w -> In u [bs "an"; bs "t"; bs "throug"] -> In v connectors -> ~ occurs v (w ++ " "%char :: u).
Proof.
  intros (C1 & C2 & C3) Iu Iv O.
  destruct (occurs_parts v u) with (p := w) as [O'|O']; [| |exact O| |].
  - intros x Ix ->. revert Ix. cbn in Iv. destruct Iv as [<-|[<-|[<-|[<-|[]]]]]; cbn; intuition discriminate.
  - cbn in Iv. destruct Iv as [<-|[<-|[<-|[<-|[]]]]]; discriminate.
  - cbn in Iv. destruct Iv as [<-|[<-|[<-|[<-|[]]]]].
    + destruct O' as (a & b & ->). rewrite !app_length in C3. cbn in C3. lia.
    + exact (C1 O').
    + destruct O' as (a & b & ->). rewrite !app_length in C3. cbn in C3. lia.
    + destruct O' as (a & b & ->). apply C2. apply in_or_app. right. left. reflexivity.
  - revert O'. apply Alphabet.containsb_ok. cbn in Iu, Iv. destruct Iv as [<-|[<-|[<-|[<-|[]]]]]; destruct Iu as [<-|[<-|[<-|[]]]]; vm_compute; reflexivity.
Qed.
(** the last characters of a month with or without a year *)
Definition last_two_calm (w : bytes) : bool := match rev w with b :: a :: _ => negb (Ascii.eqb a "t" && Ascii.eqb b "o") && negb (Ascii.eqb a "-") && negb (Ascii.eqb b "-") | _ => false end.
Lemma calm_last w lead : last_two_calm w = true -> (List.length lead <= 2)%nat -> calm (skipn (List.length w) (lead ++ w)).
Proof.
  unfold last_two_calm. intros H L. destruct (rev w) as [|b [|a w']] eqn:R; try discriminate H. assert (Ew : w = rev w' ++ [a; b]) by (rewrite <- (rev_involutive w), R; cbn; rewrite <- app_assoc; reflexivity).
  apply andb_prop in H as [H Hb]. apply andb_prop in H as [Ht Ha]. apply Bool.negb_true_iff in Hb, Ht, Ha. apply Ascii.eqb_neq in Hb, Ha.
  assert (K : skipn (List.length w) (lead ++ w) = skipn (2 - List.length lead) [a; b]).
  { subst w. set (v := rev w') in *. rewrite app_assoc. replace (List.length (v ++ [a; b])) with (List.length (lead ++ v) + (2 - List.length lead))%nat by (rewrite !app_length; cbn [List.length]; lia). apply skip_tail. }
  rewrite K. clear K Ew R.
  assert (T : ~ occurs (bs "to") [a; b]).
  { intros (p & q & E). destruct p as [|? [|? [|? p]]]; cbn in E; try discriminate E; try (injection E as -> ->; discriminate Ht). }
  assert (T1 : ~ occurs (bs "to") [b]) by (intros (p & q & E); destruct p as [|? [|? p]]; cbn in E; try discriminate E; destruct p; discriminate E).
  assert (T0 : ~ occurs (bs "to") []) by (intros (p & q & E); destruct p; discriminate E).
  destruct lead as [|x [|x' [|x'' lead]]]; cbn [List.length Nat.sub skipn] in *; [| | |lia]; (split; [assumption|]; split; [|cbn [List.length]; lia]); cbn; intuition congruence.
Qed.
Lemma last_year mw m yr yo : month_spelt mw m -> year_part yr yo -> last_two_calm (mw ++ yr) = true.
Proof.
  intros (M & _) Y. destruct Y as [|sep yy er e Is D L Er].
  - rewrite app_nil_r. apply month_two in M. unfold two_ok in M. unfold last_two_calm. destruct (rev mw) as [|b [|a q]]; try discriminate M.
    apply existsb_exists in M as ((x & x') & I & Q). cbn [fst snd] in Q. apply andb_prop in Q as [Q1 Q2]. apply Ascii.eqb_eq in Q1, Q2. subst x x'.
    exact (proj1 (forallb_forall (fun x => negb (Ascii.eqb (fst x) "t" && Ascii.eqb (snd x) "o") && negb (Ascii.eqb (fst x) "-") && negb (Ascii.eqb (snd x) "-")) ends_two) ltac:(vm_compute; reflexivity) _ I).
  - unfold last_two_calm. rewrite !rev_app_distr. destruct yy as [|y1 [|y2 [|y3 [|y4 [|]]]]]; try discriminate L.
    assert (Dg : forall x, is_digit x = true -> Ascii.eqb x "t" = false /\ Ascii.eqb x "-" = false) by (intros x Dx; destruct x as [[] [] [] [] [] [] [] []]; try discriminate Dx; split; reflexivity).
    inversion D as [|? ? D1 D']; subst. inversion D' as [|? ? D2 D'']; subst. inversion D'' as [|? ? D3 D3']; subst. inversion D3' as [|? ? D4 _]; subst.
    destruct (Dg _ D3) as [G1 G2]. destruct (Dg _ D4) as [G3 G4].
    destruct Er as [-> |[-> ->]]; [destruct e|]; cbn [era_word bs rev app list_ascii_of_string]; rewrite ?G1, ?G2, ?G4; reflexivity.
Qed.

(** Two months joined by "and", "to" or "through" in the usual way, the first one after at most two characters of lead: the connecting word is never seen, because the
    program believes the first month to end too early and the second to begin before the last letter of the connecting word. *)
Definition joined : list string := ["and"; "to"; "through"].
Theorem C108_no_month_ranges : forall e sortf text t us y lead mw m yr yo v sp mw2 m2 yr2 yo2 post, sane e -> is_sort sortf -> real_instant t us -> Z.of_nat (List.length text) < 2 ^ 31 ->
  to_lower text = y ++ lead ++ mw ++ yr ++ bs " " ++ bs v ++ sp ++ mw2 ++ yr2 ++ post -> In v joined -> blanks sp -> sp <> [] -> (List.length lead <= 2)%nat -> ~ In "\"%char text ->
  month_spelt mw m -> year_part yr yo -> month_free y lead -> month_spelt mw2 m2 -> year_part yr2 yo2 -> month_closed mw2 yo2 post ->
  only_two e text (ptime_of t us) month_name month_name y (mw ++ yr) (lead ++ bs " " ++ removelast (bs v)) (mw2 ++ yr2) ->
  exists u, month_year_is t m yo u /\ (real_date (Cal u m 1) -> main e sortf gwords_init text (ptime_of t us) = Ret (line (bs (written (Moment (Cal u m 1) 0 0 0))))).
Proof.
  intros e sortf text t us y lead mw m yr yo v sp mw2 m2 yr2 yo2 post He Hs H Hn E Iv B Ns Ll Nb Ms Y Fr Ms2 Y2 Cl2 Al.
  assert (Nb' : ~ In "\"%char (to_lower text)).
  { intros I. apply Nb. unfold to_lower in I. apply in_map_iff in I as (x & Ex & I). replace "\"%char with x; [exact I|]. destruct x as [[] [] [] [] [] [] [] []]; try reflexivity; vm_compute in Ex; discriminate Ex. }
  assert (K' : exists u a x, bs v = u ++ [a; x] /\ removelast (bs v) = u ++ [a] /\ existsb (fun z => Ascii.eqb a (fst z) && Ascii.eqb x (snd z)) ends_two = false /\ is_space x = false /\ is_digit x = false /\ In (u ++ [a]) [bs "an"; bs "t"; bs "throug"]).
  { cbn in Iv. destruct Iv as [<-|[<-|[<-|[]]]]; [exists (bs "a"), "n"%char, "d"%char|exists [], "t"%char, "o"%char|exists (bs "throu"), "g"%char, "h"%char]; (split; [reflexivity|]; split; [reflexivity|]; split; [vm_compute; reflexivity|]; split; [reflexivity|]; split; [reflexivity|]; cbn; tauto). }
  destruct K' as (u & a & x & Ev & Er & Ne & Sx & Dx & Iu). rewrite Er in Al.
  assert (E' : to_lower text = y ++ lead ++ mw ++ yr ++ (bs " " ++ u ++ [a]) ++ (x :: sp) ++ mw2 ++ yr2 ++ post) by (rewrite E, Ev, <- !app_assoc; reflexivity).
  apply (C108_two_months e sortf text t us y lead mw m yr yo (bs " " ++ u ++ [a]) (x :: sp) mw2 m2 yr2 yo2 post); auto.
  - assert (Hd : exists d w, u ++ [a] = d :: w /\ is_word d = true /\ is_space d = false /\ is_digit d = false /\ d <> "b"%char).
    { cbn in Iu. destruct Iu as [<-|[<-|[<-|[]]]]; eexists _, _; (split; [reflexivity|]; repeat split; discriminate). }
    destruct Hd as (d & w & Ed & H1 & H2 & H3 & H4). rewrite Ed. cbn [app bs list_ascii_of_string]. right. left. exists d, (w ++ x :: sp ++ mw2 ++ yr2 ++ post). split; [reflexivity|]. split; [exact H2|]. split; [exact H3|].
    destruct yo; [|exact H1]. intros (T3 & Q). injection Q as Q _. congruence.
  - replace (y ++ lead ++ mw ++ yr ++ bs " " ++ u ++ [a]) with ((y ++ lead ++ mw ++ yr ++ bs " " ++ u) ++ [a]) by (rewrite <- !app_assoc; reflexivity). apply free_after; auto.
    intros I. apply Nb'. rewrite E'. replace (y ++ lead ++ mw ++ yr ++ (bs " " ++ u ++ [a]) ++ (x :: sp) ++ mw2 ++ yr2 ++ post) with (((y ++ lead ++ mw ++ yr ++ bs " " ++ u) ++ [a; x] ++ sp) ++ mw2 ++ yr2 ++ post) by (rewrite <- !app_assoc; reflexivity).
    apply in_or_app. left. exact I.
  - intros c Ic. unfold believed_rest. cbn [bs list_ascii_of_string app]. apply calm_rest; auto. apply calm_last; [|exact Ll]. exact (last_year mw m yr yo Ms Y).
Qed.
Print Assumptions C108_no_month_ranges.

(** ** Cases *)
Lemma same_mn q : In q parsers -> beq (p_pattern q) (p_pattern month_name) = true -> q = month_name.
Proof. intros I E. cbn in I. repeat (destruct I as [<-|I]; [first [reflexivity|vm_compute in E; discriminate E]|]). contradiction. Qed.
Lemma year_case (yy : string) : digits (bs yy) -> List.length (bs yy) = 4%nat -> year_part (bs " " ++ bs yy) (Some (bs yy, NoEra)).
Proof. intros D L. rewrite <- (app_nil_r (bs yy)) at 1. apply (yp_year " " (bs yy) [] NoEra); [cbn; tauto|exact D|exact L|left; reflexivity]. Qed.
Example C106_case : let t := Moment (Cal 2024 2 27) 9 15 0 in let k := Clock (bs "5") (bs "30") [] Pm in let text := bs "The fair of March 2012 at 5:30 PM, bring cake" in
  real_instant t 3 /\ to_lower text = bs "the fair o" ++ bs "f " ++ bs "march" ++ bs " 2012" ++ bs " at " ++ bs "5:30 pm" ++ bs ", bring cake" /\ month_spelt (bs "march") 3 /\ year_part (bs " 2012") (Some (bs "2012", NoEra)) /\
  month_free (bs "the fair o") (bs "f ") /\ month_closed (bs "march") (Some (bs "2012", NoEra)) (bs " at " ++ bs "5:30 pm" ++ bs ", bring cake") /\
  clock_words (bs "5:30 pm") k (bs " pm") /\ clear_before (bs "the fair o" ++ bs "f " ++ bs "march" ++ bs " 2012" ++ bs " at ") /\ clear_after (bs " pm") (bs ", bring cake") /\ clock_time k 5 30 /\ seconds_fine k /\ on_clock (ck_mark k) 5 < 24 /\
  ~ zone_follows (bs ", bring cake") /\ (forall v, In v connectors -> ~ occurs v (bs ", bring cake")) /\
  only_pair strict_env text (ptime_of t 3) month_name (bs "the fair o") (bs "march" ++ bs " 2012") (bs "f " ++ bs " at ") (bs "5:30 pm") /\
  main strict_env sort_stable gwords_init text (ptime_of t 3) = Ret (line (bs "2012-Mar-01 17:30:00")).
Proof.
  cbv zeta. split; [inst|]. split; [reflexivity|]. split; [apply spelt_name; cbn; tauto|]. split; [apply (year_case "2012"); [repeat constructor|reflexivity]|].
  split; [apply (free_after (bs "the fair ") "o"%char "f"%char (bs " ")); [reflexivity|reflexivity|reflexivity|repeat constructor|discriminate|cbn; intuition discriminate]|].
  split; [right; left; exists "a"%char, (bs "t 5:30 pm, bring cake"); split; [reflexivity|]; split; [reflexivity|]; split; [reflexivity|]; intros (T3 & Q); discriminate Q|].
  split; [exact case_words|].
  split; [apply (clear_letter (bs "the fair of march 2012 a") "t"%char (bs " ")); [repeat constructor|discriminate|reflexivity|cbn; intuition discriminate]|].
  split; [apply (clear_sign (bs " pm") ","%char (bs " bring cake")); [discriminate|reflexivity|reflexivity|cbn; intuition discriminate]|].
  split; [split; [apply (ts_minutes (bs "5") (bs "30") 5); [apply (hs_digits (bs "5")); [repeat constructor|cbn; lia]|repeat constructor|cbn; lia]|]; cbn; lia|].
  split; [left; reflexivity|]. split; [reflexivity|]. split; [apply (no_zone_comma (bs " bring cake"))|]. split.
  { intros v Iv. cbn in Iv. destruct Iv as [<-|[<-|[<-|[<-|[]]]]]; apply Alphabet.containsb_ok; vm_compute; reflexivity. }
  split; [apply pair_only_ok; [exact same_mn_other|vm_compute; reflexivity]|vm_compute; reflexivity].
Qed.
Example C107_case : let t := Moment (Cal 2024 2 27) 9 15 0 in let k := Clock (bs "5") (bs "30") [] Pm in let text := bs "We meet at 5:30 PM, as of March 2012, bring cake" in
  real_instant t 3 /\ to_lower text = bs "we meet at " ++ bs "5:30 pm" ++ bs ", as o" ++ bs "f " ++ bs "march" ++ bs " 2012" ++ bs ", bring cake" /\ month_spelt (bs "march") 3 /\ year_part (bs " 2012") (Some (bs "2012", NoEra)) /\
  month_free (bs "we meet at " ++ bs "5:30 pm" ++ bs ", as o") (bs "f ") /\ month_closed (bs "march") (Some (bs "2012", NoEra)) (bs ", bring cake") /\
  clock_words (bs "5:30 pm") k (bs " pm") /\ clear_before (bs "we meet at ") /\ clear_after (bs " pm") (bs ", as o" ++ bs "f " ++ bs "march" ++ bs " 2012" ++ bs ", bring cake") /\ clock_time k 5 30 /\ seconds_fine k /\ on_clock (ck_mark k) 5 < 24 /\
  ~ zone_follows (bs ", as o" ++ bs "f " ++ bs "march" ++ bs " 2012" ++ bs ", bring cake") /\ (forall v, In v connectors -> ~ occurs v (believed_rest (bs "f ") (bs "march" ++ bs " 2012") (bs ", bring cake"))) /\
  only_time_day strict_env text (ptime_of t 3) month_name (bs "we meet at ") (bs "5:30 pm") (bs ", as o") (bs "march" ++ bs " 2012") /\
  main strict_env sort_stable gwords_init text (ptime_of t 3) = Ret (line (bs "2012-Mar-01 17:30:00")).
Proof.
  cbv zeta. split; [inst|]. split; [reflexivity|]. split; [apply spelt_name; cbn; tauto|]. split; [apply (year_case "2012"); [repeat constructor|reflexivity]|].
  split; [apply (free_after (bs "we meet at 5:30 pm, as ") "o"%char "f"%char (bs " ")); [reflexivity|reflexivity|reflexivity|repeat constructor|discriminate|cbn; intuition discriminate]|].
  split; [left; split; [reflexivity|]; split; [reflexivity|]; discriminate|].
  split; [exact case_words|].
  split; [apply (clear_letter (bs "we meet a") "t"%char (bs " ")); [repeat constructor|discriminate|reflexivity|cbn; intuition discriminate]|].
  split; [apply (clear_sign (bs " pm") ","%char (bs " as of march 2012, bring cake")); [discriminate|reflexivity|reflexivity|cbn; intuition discriminate]|].
  split; [split; [apply (ts_minutes (bs "5") (bs "30") 5); [apply (hs_digits (bs "5")); [repeat constructor|cbn; lia]|repeat constructor|cbn; lia]|]; cbn; lia|].
  split; [left; reflexivity|]. split; [reflexivity|]. split; [apply (no_zone_comma (bs " as of march 2012, bring cake"))|]. split.
  { intros v Iv. cbn in Iv. destruct Iv as [<-|[<-|[<-|[<-|[]]]]]; apply Alphabet.containsb_ok; vm_compute; reflexivity. }
  split; [apply time_day_only_ok; [exact same_mn_other|vm_compute; reflexivity]|vm_compute; reflexivity].
Qed.
Example C108_case : let t := Moment (Cal 2024 2 27) 9 15 0 in let text := bs "We are away from March 2012 to May 2013, bring cake" in
  real_instant t 3 /\ to_lower text = bs "we are away fro" ++ bs "m " ++ bs "march" ++ bs " 2012" ++ bs " " ++ bs "to" ++ bs " " ++ bs "may" ++ bs " 2013" ++ bs ", bring cake" /\ ~ In "\"%char text /\
  month_spelt (bs "march") 3 /\ year_part (bs " 2012") (Some (bs "2012", NoEra)) /\ month_free (bs "we are away fro") (bs "m ") /\
  month_spelt (bs "may") 5 /\ year_part (bs " 2013") (Some (bs "2013", NoEra)) /\ month_closed (bs "may") (Some (bs "2013", NoEra)) (bs ", bring cake") /\
  only_two strict_env text (ptime_of t 3) month_name month_name (bs "we are away fro") (bs "march" ++ bs " 2012") (bs "m " ++ bs " " ++ removelast (bs "to")) (bs "may" ++ bs " 2013") /\
  main strict_env sort_stable gwords_init text (ptime_of t 3) = Ret (line (bs "2012-Mar-01 00:00:00")).
Proof.
  cbv zeta. split; [inst|]. split; [reflexivity|]. split; [cbn; intuition discriminate|]. split; [apply spelt_name; cbn; tauto|]. split; [apply (year_case "2012"); [repeat constructor|reflexivity]|].
  split; [apply (free_after (bs "we are away fr") "o"%char "m"%char (bs " ")); [reflexivity|reflexivity|reflexivity|repeat constructor|discriminate|cbn; intuition discriminate]|].
  split; [apply spelt_name; cbn; tauto|]. split; [apply (year_case "2013"); [repeat constructor|reflexivity]|].
  split; [left; split; [reflexivity|]; split; [reflexivity|]; discriminate|].
  split; [apply two_only_ok; [exact same_mn|exact same_mn|vm_compute; reflexivity]|vm_compute; reflexivity].
Qed.
