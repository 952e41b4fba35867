(** * A phrase in a sentence is answered like the phrase alone (C92) *)
From Verif Require Import Base Regex RegexParse Calendar Components Utils Execute Spec View ParserSpec CalendarCycle CalendarFacts RegexFacts ResultFacts
  WeekSpec ExecuteFacts ParserRe MatchFacts LocateFacts HistoryFacts ParserFacts CasualFacts Symbolic Open Template DeadlineFacts ISOFacts ISOShape HolidayFacts AgoFacts WeekFacts OverlapFacts FoundFacts Refiners Main
  P_CasualDate P_CasualTime P_Deadline P_ISO P_Holiday P_Week Prop_Execute Prop_Casual Prop_Deadline Prop_ISO Prop_Holiday Prop_Refine Prop_Ago Prop_Week Prop_Tags Prop_Dates MainFacts Prop_Main Prop_Answers Prop_Days Prop_Format Prop_Found Prop_Times NumberFacts.
From Coq Require Import ZifyBool ZifyNat ZifyN Permutation.
Open Scope string_scope.
Open Scope list_scope.
Open Scope Z_scope.

(** ** A result inside which all the others start, and which is longer than they are, is the only one left *)
Lemma overlap_dominant r : 0 < textLength r -> res_copy r = r -> forall l prev,
  by_index (prev :: l) -> Forall (fun x => res_copy x = x) (prev :: l) ->
  Forall (fun x => 0 < textLength x /\ getIndex r <= getIndex x < getIndex r + textLength r /\ (x = r \/ textLength x < textLength r)) (prev :: l) ->
  prev = r \/ In r l -> overlap_loop prev l = [r].
Proof.
  intros Lr Cr. assert (Nr : isEmpty r = false) by (apply filled_nonempty; intros E; unfold textLength in Lr; rewrite E in Lr; cbn in Lr; lia).
  induction l as [|x l IH]; intros prev B C F D; cbn [overlap_loop].
  - destruct D as [->|[]]. rewrite Nr. reflexivity.
  - inversion F as [|? ? (P1 & P2 & P3) F']; subst. inversion F' as [|? ? (X1 & X2 & X3) F2]; subst.
    inversion C as [|? ? Cp C']; subst. inversion C' as [|? ? Cx C2]; subst. unfold res_assign. rewrite Cx.
    pose proof (by_index_all _ _ B) as A. pose proof (by_index_tl _ _ B) as Bt. pose proof (by_index_all _ _ Bt) as Ax. pose proof (by_index_tl _ _ Bt) as Bl.
    assert (Bp : by_index (prev :: l)) by (apply by_index_cons; [exact Bl|inversion A; assumption]).
    assert (K : prev = r \/ (prev <> r /\ getIndex x = getIndex r /\ getIndex prev = getIndex r)).
    { destruct D as [->|I]; [left; reflexivity|]. destruct P3 as [->|P3]; [left; reflexivity|]. right. split; [intros ->; lia|].
      rewrite Forall_forall in A. specialize (A r I). unfold OverlapFacts.starts in A. split; [|lia].
      destruct I as [->|I]; [reflexivity|]. rewrite Forall_forall in Ax. specialize (Ax r I). unfold OverlapFacts.starts in Ax. lia. }
    destruct K as [->|(N & Xi & Pi)].
    + replace (getIndex x <? res_stop r) with true by (unfold res_stop; lia). replace (textLength r <? textLength x) with false by (destruct X3 as [->|X3]; lia).
      apply IH; [exact Bp|constructor; assumption|constructor; [auto|exact F2]|left; reflexivity].
    + replace (getIndex x <? res_stop prev) with true by (unfold res_stop; lia).
      destruct D as [->|[->|I]]; [congruence| |].
      * replace (textLength prev <? textLength r) with true by (destruct P3; [congruence|lia]). apply IH; auto.
      * destruct (textLength prev <? textLength x); [apply IH; auto|]. apply IH; [exact Bp|constructor; assumption|constructor; [auto|exact F2]|right; exact I].
Qed.
Lemma main_dominant e sortf text ref rs r : sane e -> is_sort sortf ->
  all_alone e parsers text ref = Ret rs -> In r rs -> tag_is TTimeExpression r = false ->
  (forall r', In r' rs -> r' = r \/ (getIndex r <= getIndex r' < getIndex r + textLength r /\ textLength r' < textLength r)) ->
  main e sortf gwords_init text ref = shown (toDate r).
Proof.
  intros He Hs H Ir Nt D. rewrite main_alone, H. cbn [bind]. destruct (Hs rs) as [P B].
  assert (Cp : forall x, In x rs -> res_copy x = x).
  { intros x Ix. apply (all_alone_in _ _ _ _ _ H) in Ix as (p & l & Ip & Xp & Il). pose proof (execute_copies _ _ _ _ _ _ Xp) as E.
    clear - E Il. induction l as [|y l IH]; [contradiction|]. cbn [map] in E. injection E as E1 E2. destruct Il as [<-|Il]; auto. }
  assert (Ps : forall x, In x rs -> 0 < textLength x).
  { intros x Ix. apply (all_alone_in _ _ _ _ _ H) in Ix as (p & l & Ip & Xp & Il). apply in_all in Ip.
    pose proof (result_text _ _ _ _ _ _ _ He Ip Xp Il) as T. unfold textLength; destruct (r_text x); [congruence|cbn [List.length]; lia]. }
  assert (Po : forall x, In x rs -> 0 < textLength x /\ getIndex r <= getIndex x < getIndex r + textLength r /\ (x = r \/ textLength x < textLength r)).
  { intros x Ix. pose proof (Ps x Ix). pose proof (Ps r Ir). split; [assumption|]. destruct (D x Ix) as [->|[Q1 Q2]]; [split; [lia|auto]|auto]. }
  assert (E : overlap_refine (sortf rs) = [r]).
  { assert (F1 : Forall (fun x => res_copy x = x) (sortf rs)) by (apply Forall_forall; intros x Ix; apply Cp; eapply Permutation_in; [apply Permutation_sym; exact P|exact Ix]).
    assert (F2 : Forall (fun x => 0 < textLength x /\ getIndex r <= getIndex x < getIndex r + textLength r /\ (x = r \/ textLength x < textLength r)) (sortf rs))
      by (apply Forall_forall; intros x Ix; apply Po; eapply Permutation_in; [apply Permutation_sym; exact P|exact Ix]).
    pose proof (Permutation_in _ P Ir) as Is. destruct (sortf rs) as [|a l]; [contradiction|].
    inversion F2 as [|? ? (A1 & _) _]; subst. inversion F1 as [|? ? A2 F1']; subst.
    rewrite refine_loop by (apply filled_nonempty; intros E; unfold textLength in A1; rewrite E in A1; cbn in A1; lia).
    rewrite A2. assert (M : map res_copy l = l). { clear - F1'. induction F1' as [|x l Hx F IH]; [reflexivity|]. cbn [map]. rewrite Hx, IH. reflexivity. }
    rewrite M. assert (Dd : a = r \/ In r l) by (destruct Is as [->|Is]; auto). apply overlap_dominant; auto. }
  destruct (refiners_single r (to_lower text)) as (r' & E' & S').
  { apply untimed_no_zone. exact Nt. }
  assert (E2 : run_refiners (sortf rs) (to_lower text) = run_refiners [r] (to_lower text)).
  { unfold run_refiners. rewrite E. cbn [overlap_refine map]. rewrite (Cp r Ir). reflexivity. }
  rewrite E2, E'. cbn [bind show]. rewrite (toDate_same _ _ S'). reflexivity.
Qed.

(** in the results of one parser, only the result itself starts inside it *)
Lemma in_order_unique N l r r' : in_order N l -> In r l -> In r' l -> 0 < textLength r -> 0 < textLength r' -> getIndex r <= getIndex r' < getIndex r + textLength r -> r' = r.
Proof.
  intros O. induction O as [|x l H1 H2 H3 O IH]; [contradiction|]. intros I I' P P' B.
  assert (Q : forall y, In y l -> getIndex x + textLength x <= getIndex y) by (intros y Iy; apply (H3 y Iy)).
  destruct I as [<-|I], I' as [<-|I']; auto; [specialize (Q _ I'); lia|specialize (Q _ I); lia].
Qed.

(** ** What the phrases of C85 - C89 and C91 say *)
Inductive phrase_says (t : moment) : parser -> bytes -> bytes -> bytes -> moment -> Prop :=
| ps_now pre post : phrase_says t casual_date pre (bs "now") post t
| ps_today pre post : phrase_says t casual_date pre (bs "today") post (Moment (mdate t) 0 0 0)
| ps_tonight pre post : phrase_says t casual_date pre (bs "tonight") post (Moment (mdate t) 22 0 0)
| ps_last_night pre sp post c : blanks sp -> (if 6 <? mhour t then days_after (-1) (mdate t) c else c = mdate t) ->
    phrase_says t casual_date pre (bs "last" ++ sp ++ bs "night") post (Moment c 0 0 0)
| ps_yesterday pre post c : days_after (-1) (mdate t) c -> phrase_says t casual_date pre (bs "yesterday") post (Moment c (mhour t) 0 0)
| ps_tomorrow pre w post c : w = bs "tomorrow" \/ w = bs "tmr" -> (if 0 <? mhour t then days_after 1 (mdate t) c else c = mdate t) ->
    phrase_says t casual_date pre w post (Moment c 0 0 0)
| ps_deadline_date pre w post n v u q c : deadline_phrase w n (bs v) -> spells n q -> In (v, u) full_units -> deadline_target t q u c ->
    phrase_says t deadline pre w post (Moment c 0 0 0)
| ps_deadline_clock pre w post n v u q secs t' : deadline_phrase w n (bs v) -> spells n q -> In (v, u) full_units -> u <> UDay -> deadline_seconds q u = Some secs ->
    (forall k, q = Whole k -> k <= 2 ^ 24) -> seconds_after secs t t' -> mdate t' = mdate t -> phrase_says t deadline pre w post t'
| ps_iso pre yy mm dd post c : date_loose yy mm dd -> decimal yy = cy c -> decimal mm = cm c -> decimal dd = cd c -> (forall a x, pre = a ++ [x] -> ~ In x (bs ":.+-")) ->
    phrase_says t iso pre (ymd_text yy mm dd) post (Moment c 0 0 0)
| ps_iso_time pre yy mm dd k post c : date_loose yy mm dd -> two mm -> two dd -> clock_ok k -> decimal yy = cy c -> decimal mm = cm c -> decimal dd = cd c ->
    (forall a x, pre = a ++ [x] -> ~ In x (bs ":.+-")) -> (forall x b, post = x :: b -> ~ In x (bs ":.+-")) ->
    phrase_says t iso pre (ymd_text yy mm dd ++ clock_text k) post (Moment c (decimal (ic_h k)) (decimal (ic_m k)) (match ic_s k with None => 0 | Some (ss, _) => decimal ss end))
| ps_holiday pre x r sp post c : In (x, r) plain_names -> blanks sp -> sp <> [] -> falls_on r (cy (mdate t)) c -> phrase_says t holiday pre (bs x ++ sp ++ bs "day") post (Moment c 0 0 0)
| ps_week pre kw s s1 n s2 k ws post c : way kw s -> blanks s1 -> s1 <> [] -> week_amount n s2 k -> week_word ws -> not_after_keyword pre ->
    (n = [] -> forall sp b, post = sp ++ bs "week" ++ b -> ~ blanks sp) -> days_after (s * (7 * k)) (mdate t) c ->
    phrase_says t week pre (kw ++ s1 ++ n ++ s2 ++ ws) post (Moment c 0 0 0)
| ps_this_week pre sp post : blanks sp -> not_after_keyword pre -> phrase_says t week pre (bs "this" ++ sp ++ bs "week") post (Moment (mdate t) 0 0 0)
| ps_this_time pre sp w h post : In (w, h) [("morning", 6); ("afternoon", 15); ("evening", 20); ("noon", 12); ("night", 20)] -> blanks sp ->
    phrase_says t casual_time pre (bs "this" ++ sp ++ bs w) post (Moment (mdate t) h (mmin t) 0).

Lemma days_after_fun n c c1 c2 : days_after n c c1 -> days_after n c c2 -> c1 = c2.
Proof. intros [V1 E1] [V2 E2]. apply rd_inj; auto. lia. Qed.
Lemma same_when (b : bool) n c c1 c2 : (if b then days_after n c c1 else c1 = c) -> (if b then days_after n c c2 else c2 = c) -> c1 = c2.
Proof. destruct b; [apply days_after_fun|congruence]. Qed.
Lemma falls_on_fun r y c c' : falls_on r y c -> falls_on r y c' -> c = c'.
Proof.
  intros (A & B) (A' & B'). destruct c as [y1 m1 d1], c' as [y2 m2 d2]. cbn [cy cm cd] in *. subst y1 y2.
  destruct r; destruct B as [B1 B2], B' as [B1' B2']; cbn [cy cm cd] in *; subst; f_equal; eauto using nth_weekday_unique, last_weekday_unique.
Qed.
Lemma zero_of l p f : untouched l p -> In f l -> api_get f p = 0.
Proof. unfold untouched. rewrite Forall_forall. intros U I. apply (U f I). Qed.
Lemma denotes_certain p c h mi s : date_certain p c -> api_get Hour p = h -> api_get Min p = mi -> api_get Sec p = s -> denotes p (Moment c h mi s).
Proof. intros (D1 & D2 & D3) <- <- <-. unfold denotes. repeat split; [exact (certain_value _ _ _ D1)|exact (certain_value _ _ _ D2)|exact (certain_value _ _ _ D3)]. Qed.
Lemma denotes_implied p c h mi s : date_implied p c -> api_get Hour p = h -> api_get Min p = mi -> api_get Sec p = s -> denotes p (Moment c h mi s).
Proof. intros (D1 & D2 & D3) <- <- <-. unfold denotes. repeat split; [exact (implied_value _ _ _ D1)|exact (implied_value _ _ _ D2)|exact (implied_value _ _ _ D3)]. Qed.

Lemma target_reached t q u c p : deadline_target t q u c -> deadline_means t q u p -> day_result p c.
Proof.
  intros T M.
  assert (D : exists c', deadline_target t q u c' /\ day_result p c').
  { destruct u, q; cbn [deadline_target deadline_means] in T, M |- *; try contradiction; destruct M as (c' & M1 & M2); exists c'; split; auto; split; auto; apply T. }
  destruct D as (c' & T' & D). assert (c' = c) as <-; [|exact D].
  destruct u, q; cbn [deadline_target] in T, T'; try contradiction;
    first [ eapply days_after_fun; eassumption | destruct T as [T _]; destruct T' as [T' _]; apply months_after_fun in T, T'; congruence | apply months_after_fun in T, T'; congruence ].
Qed.
Lemma clock_reached t q u secs t' p : u <> UDay -> deadline_seconds q u = Some secs -> (forall k, q = Whole k -> k <= 2 ^ 24) -> seconds_after secs t t' -> deadline_means t q u p ->
  date_implied p (mdate t) /\ clock_implied p t'.
Proof.
  intros Nu Ds Hk Sa M. destruct u, q as [n'|]; cbn [deadline_seconds deadline_means] in Ds, M; try discriminate Ds; try congruence; destruct M as (secs' & E & _ & D & C);
    try specialize (Hk n' eq_refl); injection Ds as <-; (split; [exact D|]); apply C; rewrite ?(E Hk), ?E; rewrite ?Z.mul_1_l; exact Sa.
Qed.

(** each phrase is found by its parser and denotes that moment *)
Lemma phrase_found e text t us p pre w post mo l : sane e -> real_instant t us -> neighbours (mdate t) -> Z.of_nat (List.length text) < 2 ^ 32 ->
  to_lower text = pre ++ w ++ post -> separate pre post -> phrase_says t p pre w post mo -> real_moment mo -> alone e p text (ptime_of t us) = Ret l ->
  exists res sp, In res l /\ stands res pre (w ++ sp) /\ blanks sp /\ has_end res = false /\ denotes (r_start res) mo.
Proof.
  intros He H N Hn E Sp Ps Rm El.
  assert (Cas : forall w', casual_phrase w' -> to_lower text = pre ++ w' ++ post -> p = casual_date -> exists res sp, In res l /\ stands res pre (w' ++ sp) /\ blanks sp /\
     casual_date_means t (r_text res) res /\ has_end res = false).
  { intros w' Cw E' ->. destruct (C85_casual_dates_stand e gwords_init text t us pre w' post He H N Hn Cw E' Sp) as (rs & res & sp & X & I & St & B).
    unfold alone in El. rewrite X in El. apply RelativeFacts.ret_inj in El. subst l. exists res, sp. split; [exact I|]. split; [exact St|]. split; [exact B|].
    destruct (C18_casual_dates e gwords_init text t us rs res He H X I) as (En & U & M). split; [split; [exact U|exact M]|exact En]. }
  assert (Fin : forall res, In res l -> stands res pre w -> has_end res = false -> denotes (r_start res) mo -> exists res sp, In res l /\ stands res pre (w ++ sp) /\ blanks sp /\ has_end res = false /\ denotes (r_start res) mo).
  { intros res I St En D. exists res, []. rewrite app_nil_r. split; [exact I|]. split; [exact St|]. split; [constructor|]. auto. }
  destruct Ps as [pre post|pre post|pre post|pre sp post c B D|pre post c D|pre w post c W D|pre w post n v u q c D1 D2 D3 D4|pre w post n v u q secs t' D1 D2 D3 D4 D5 D6 D7 D8
    |pre yy mm dd post c D1 D2 D3 D4 D5|pre yy mm dd k post c D1 D2 D3 D4 D5 D6 D7 D8 D9|pre x r sp post c D1 D2 D3 D4|pre kw s s1 n s2 k ws post c D1 D2 D3 D4 D5 D6 D7 D8|pre sp post D1 D2|pre sp w h post D1 D2].
  - destruct (Cas (bs "now") ltac:(left; cbn; tauto) E eq_refl) as (res & sp & I & St & B & (U & M) & En). exists res, sp. do 4 (split; [assumption|]).
    rewrite (proj2 St) in M. destruct M as [(_ & Dc & Hh & Hm & Hs)|[(X & _)|[(X & _)|[(s & c & X & _)|[(s & c & X & _)|(s & c & [X|X] & _)]]]]]; try (cbn in X; discriminate).
    destruct t as [d h mi s]. apply denotes_certain; [exact Dc|..]; eauto using certain_value.
  - destruct (Cas (bs "today") ltac:(left; cbn; tauto) E eq_refl) as (res & sp & I & St & B & (U & M) & En). exists res, sp. do 4 (split; [assumption|]).
    rewrite (proj2 St) in M. destruct M as [(X & _)|[(_ & Dc & V)|[(X & _)|[(s & c & X & _)|[(s & c & X & _)|(s & c & [X|X] & _)]]]]]; try (cbn in X; discriminate).
    apply denotes_certain; [exact Dc|..]; apply (zero_of _ _ _ V); cbn; tauto.
  - destruct (Cas (bs "tonight") ltac:(left; cbn; tauto) E eq_refl) as (res & sp & I & St & B & (U & M) & En). exists res, sp. do 4 (split; [assumption|]).
    rewrite (proj2 St) in M. destruct M as [(X & _)|[(X & _)|[(_ & Dc & Hh & V)|[(s & c & X & _)|[(s & c & X & _)|(s & c & [X|X] & _)]]]]]; try (cbn in X; discriminate).
    apply denotes_certain; [exact Dc|exact (implied_value _ _ _ Hh)|..]; apply (zero_of _ _ _ V); cbn; tauto.
  - destruct (Cas (bs "last" ++ sp ++ bs "night") ltac:(right; eauto) E eq_refl) as (res & sp' & I & St & B' & (U & M) & En). exists res, sp'. do 4 (split; [assumption|]).
    rewrite (proj2 St) in M. destruct M as [(X & _)|[(X & _)|[(X & _)|[(s & c' & X & _ & Rc & Dd & Dc & Hh & V)|[(s & c' & X & _)|(s & c' & [X|X] & _)]]]]]; try (cbn in X; discriminate).
    rewrite (same_when _ _ _ _ _ D Dd). apply denotes_certain; [exact Dc|exact (implied_value _ _ _ Hh)|..]; apply (zero_of _ _ _ V); cbn; tauto.
  - destruct (Cas (bs "yesterday") ltac:(left; cbn; tauto) E eq_refl) as (res & sp & I & St & B & (U & M) & En). exists res, sp. do 4 (split; [assumption|]).
    rewrite (proj2 St) in M. destruct M as [(X & _)|[(X & _)|[(X & _)|[(s & c' & X & _)|[(s & c' & X & _ & Rc & Dd & Dc & Hh & V)|(s & c' & [X|X] & _)]]]]]; try (cbn in X; discriminate).
    rewrite (days_after_fun _ _ _ _ D Dd). apply denotes_certain; [exact Dc|exact (implied_value _ _ _ Hh)|..]; apply (zero_of _ _ _ V); cbn; tauto.
  - destruct (Cas w ltac:(left; destruct W as [-> | ->]; cbn; tauto) E eq_refl) as (res & sp & I & St & B & (U & M) & En). exists res, sp. do 4 (split; [assumption|]).
    rewrite (proj2 St) in M. destruct M as [(X & _)|[(X & _)|[(X & _)|[(s & c' & X & _)|[(s & c' & X & _)|(s & c' & X & _ & Rc & Dd & Dc & V)]]]]]; try (exfalso; destruct W as [-> | ->]; cbn in X; discriminate).
    rewrite (same_when _ _ _ _ _ D Dd). apply denotes_certain; [exact Dc|..]; apply (zero_of _ _ _ V); cbn; tauto.
  - assert (Iu : In (bs v) (map bs all_units)) by (apply in_map; apply in_or_app; left; apply (in_map fst) in D3; exact D3).
    pose proof (proj1 (proj1 H)) as Rt. pose proof (proj1 Rm) as R. cbn [mdate] in R.
    assert (Hm : forall k, q = Whole k -> k <= INT_MAX).
    { intros k ->. unfold INT_MAX. destruct u; cbn [deadline_target] in D4; try contradiction; try (destruct D4 as [_ T]; lia).
      - destruct (day_fits t k c Rt R D4) as (_ & L & _). lia.
      - destruct (day_fits t (7 * k) c Rt R D4) as (_ & L & _). lia. }
    destruct (C86_deadlines_stand e text t us pre w post n (bs v) q l He H Hn D1 D2 Iu Hm E Sp El) as (res & I & St & En & U & M). apply (Fin res); auto. specialize (M v u eq_refl D3).
    destruct (target_reached _ _ _ _ _ D4 M) as (_ & D & V).
    apply denotes_implied; [exact D|..]; apply (zero_of _ _ _ V); cbn; tauto.
  - assert (Iu : In (bs v) (map bs all_units)) by (apply in_map; apply in_or_app; left; apply (in_map fst) in D3; exact D3).
    assert (Hm : forall k, q = Whole k -> k <= INT_MAX) by (intros k Ek; specialize (D6 k Ek); unfold INT_MAX; lia).
    destruct (C86_deadlines_stand e text t us pre w post n (bs v) q l He H Hn D1 D2 Iu Hm E Sp El) as (res & I & St & En & U & M). apply (Fin res); auto. specialize (M v u eq_refl D3).
    pose proof (clock_reached _ _ _ _ _ _ D4 D5 D6 D7 M) as D.
    destruct D as (D & C1 & C2 & C3). rewrite <- D8 in D. destruct t' as [d h mi s]. apply denotes_implied; [exact D|..]; eauto using implied_value.
  - pose proof (proj1 (proj1 Rm)) as V. unfold valid in V. cbn [mdate] in V.
    assert (B1 : 1 <= decimal mm <= 12) by (rewrite D3; lia). assert (B2 : 1 <= decimal dd <= 31) by (rewrite D4; pose proof (month_len_bounds (cy c) (cm c)); lia).
    destruct (C87_iso_stand e gwords_init text (ptime_of t us) pre yy mm dd None post l He Hn D1 B1 B2 I) as (res & Ir & St & En & Dc & _ & U); auto.
    { unfold iso_text. rewrite app_nil_r. exact E. }
    apply (Fin res); auto. { unfold iso_text in St. rewrite app_nil_r in St. exact St. }
    rewrite D2, D3, D4 in Dc. destruct c as [y m d]. apply denotes_certain; [exact Dc|..]; apply (zero_of _ _ _ U); cbn; tauto.
  - pose proof (proj1 (proj1 Rm)) as V. unfold valid in V. cbn [mdate] in V.
    assert (B1 : 1 <= decimal mm <= 12) by (rewrite D6; lia). assert (B2 : 1 <= decimal dd <= 31) by (rewrite D7; pose proof (month_len_bounds (cy c) (cm c)); lia).
    destruct (C87_iso_stand e gwords_init text (ptime_of t us) pre yy mm dd (Some k) post l He Hn D1 B1 B2 (conj D2 (conj D3 (conj D4 D9)))) as (res & Ir & St & En & Dc & _ & Hh & Hm & Hs & _); auto.
    apply (Fin res); auto.
    rewrite D5, D6, D7 in Dc. destruct c as [y m d]. apply denotes_certain; [exact Dc|exact (certain_value _ _ _ Hh)|exact (certain_value _ _ _ Hm)|]. destruct (ic_s k) as [[ss fr]|]; [exact (certain_value _ _ _ Hs)|apply Hs].
  - destruct (C88_holidays_stand e gwords_init text t us pre x r sp post l He H Hn D1 D2 D3 E Sp El) as (res & I & St & En & c' & Rc & F & D & _ & Dh & Dm & U). apply (Fin res); auto.
    rewrite (falls_on_fun _ _ _ _ D4 F). apply day_denotes; assumption.
  - destruct (C89_weeks_stand e [] text t us pre kw s s1 n s2 k ws post l He ltac:(intros ? []) H Hn D1 D2 D3 D4 D5 E Sp D6 D7 El) as (res & c' & I & St & En & Da & _ & Di & U). apply (Fin res); auto.
    rewrite (days_after_fun _ _ _ _ D8 Da). apply midnight_denotes; assumption.
  - destruct (C89_this_week_stands e [] text t us pre sp post l He ltac:(intros ? []) H Hn D1 E Sp D2 El) as (res & I & St & En & Di & U). apply (Fin res); auto. apply midnight_denotes; assumption.
  - destruct (C91_this_time_stands e gwords_init text t us pre sp w h post He H Hn D1 D2 E Sp) as (rs & res & X & I & St & En & Di & _ & Hh & Hm & U).
    unfold alone in El. rewrite X in El. apply RelativeFacts.ret_inj in El. subst l. apply (Fin res); auto.
    apply denotes_implied; [exact Di|exact (implied_value _ _ _ Hh)|exact (implied_value _ _ _ Hm)|apply (zero_of _ _ _ U); cbn; tauto].
Qed.
Lemma says_parser t p pre w post mo : phrase_says t p pre w post mo -> w <> [] /\ In p [casual_date; casual_time; deadline; iso; holiday; week].
Proof.
  intros H. destruct H; (split; [|cbn; tauto]); try discriminate.
  - match goal with X : _ \/ _ |- _ => destruct X as [-> | ->]; discriminate end.
  - match goal with X : deadline_phrase _ _ _ |- _ => destruct X as (kw & s1 & s2 & -> & [-> | ->] & _); discriminate end.
  - match goal with X : deadline_phrase _ _ _ |- _ => destruct X as (kw & s1 & s2 & -> & [-> | ->] & _); discriminate end.
  - unfold ymd_text. destruct yy; [|discriminate]. destruct mm; discriminate.
  - unfold ymd_text. destruct yy; [|discriminate]. destruct mm; discriminate.
  - match goal with X : In _ plain_names |- _ => cbn in X; decompose [or] X; try contradiction; match goal with E : (_, _) = (_, _) |- _ => injection E as <- <- end; discriminate end.
  - match goal with X : way _ _ |- _ => destruct X as [[-> _]|[-> _]]; discriminate end.
Qed.
Lemma plain_untimed e p text ref l r : sane e -> In p [casual_date; casual_time; deadline; iso; holiday; week] -> alone e p text ref = Ret l -> In r l -> tag_is TTimeExpression r = false.
Proof.
  intros He Ip X I. destruct (tag_is TTimeExpression r) eqn:T; [|reflexivity]. exfalso.
  assert (Q : exists t, In (p, t) own_tag /\ t <> Some TTimeExpression).
  { cbn in Ip. destruct Ip as [<-|[<-|[<-|[<-|[<-|[<-|[]]]]]]].
    - exists (Some TCasualDate). split; [left; reflexivity|discriminate].
    - exists (Some TCasualTime). split; [right; left; reflexivity|discriminate].
    - exists (Some TDeadline). split; [do 3 right; left; reflexivity|discriminate].
    - exists (Some TISO). split; [do 4 right; left; reflexivity|discriminate].
    - exists (Some THolidays). split; [do 11 right; left; reflexivity|discriminate].
    - exists None. split; [do 12 right; left; reflexivity|discriminate]. }
  destruct Q as (t & It & Nt). apply Nt. exact (C73_only_own_tag e p t gwords_init text ref l r TTimeExpression He It X I T).
Qed.
Lemma plain_in p : In p [casual_date; casual_time; deadline; iso; holiday; week] -> In p parsers.
Proof. cbn. tauto. Qed.

(** C92.  A text contains the phrase [w], and nothing else in it is recognised: every result of every parser starts within the phrase, and the
    results of the other parsers are shorter than the phrase.  Then the program prints the moment the phrase says. *)
Theorem C92_sentence_answer : forall e sortf text t us p pre w post mo, sane e -> is_sort sortf -> real_instant t us -> neighbours (mdate t) -> Z.of_nat (List.length text) < 2 ^ 32 ->
  to_lower text = pre ++ w ++ post -> separate pre post -> phrase_says t p pre w post mo -> real_moment mo ->
  (forall q, In q parsers -> exists l, alone e q text (ptime_of t us) = Ret l /\ forall r, In r l ->
     Z.of_nat (List.length pre) <= getIndex r < Z.of_nat (List.length pre) + Z.of_nat (List.length w) /\ (q = p \/ textLength r < Z.of_nat (List.length w))) ->
  main e sortf gwords_init text (ptime_of t us) = Ret (line (bs (written mo))).
Proof.
  intros e sortf text t us p pre w post mo He Hs H N Hn E Sp Ps Rm Al. destruct (says_parser _ _ _ _ _ _ Ps) as [Nw Ip]. pose proof (plain_in p Ip) as Ip'.
  destruct (Al p Ip') as (l & El & Bl). destruct (phrase_found e text t us p pre w post mo l He H N Hn E Sp Ps Rm El) as (res & sp & I & (Ix & Tx) & _ & En & D).
  assert (A : exists rs, all_alone e parsers text (ptime_of t us) = Ret rs).
  { assert (Q : exists rss, Forall2 (fun p l => alone e p text (ptime_of t us) = Ret l) parsers rss).
    { revert Al. clear. generalize parsers as ps. induction ps as [|q ps IH]; intros Al; [exists []; constructor|]. destruct (Al q (or_introl eq_refl)) as (l & El & _).
      destruct IH as [rss F]; [intros q' I'; apply Al; right; exact I'|]. exists (l :: rss). constructor; assumption. }
    destruct Q as [rss F]. exists (List.concat rss). apply all_alone_ret. eauto. }
  destruct A as [rs A].
  assert (Ir : In res rs) by (apply (all_alone_in _ _ _ _ _ A); exists p, l; auto).
  assert (Lr : Z.of_nat (List.length w) <= textLength res) by (unfold textLength; rewrite Tx, app_length; lia).
  rewrite (main_dominant e sortf text (ptime_of t us) rs res He Hs A Ir (plain_untimed e p text _ l res He Ip El I)).
  - unfold shown. rewrite (toDate_start res mo D Rm); [reflexivity| |exact En].
    apply (C73_no_refiner_tag e p gwords_init text (ptime_of t us) l res TExtractTZ He (in_all p Ip') El I). left. reflexivity.
  - intros r' Ir'. apply (all_alone_in _ _ _ _ _ A) in Ir' as (q & lq & Iq & Eq & Il). destruct (Al q Iq) as (l' & El' & Bq). rewrite El' in Eq. apply RelativeFacts.ret_inj in Eq. subst l'.
    destruct (Bq r' Il) as [B1 B2]. rewrite Ix.
    destruct B2 as [->|Q]; [left|right; lia]. rewrite El in El'. apply RelativeFacts.ret_inj in El'. subst lq.
    pose proof (result_text _ _ _ _ _ _ _ He (in_all p Ip') El I) as T1. pose proof (result_text _ _ _ _ _ _ _ He (in_all p Ip') El Il) as T2.
    apply (in_order_unique (Z.of_nat (List.length text)) l); auto.
    + apply (C13_results_in_order _ _ _ _ _ _ He (in_all p Ip') Hn El).
    + unfold textLength. destruct (r_text res); [congruence|cbn [List.length]; lia].
    + unfold textLength. destruct (r_text r'); [congruence|cbn [List.length]; lia].
    + rewrite Ix. lia.
Qed.
Print Assumptions C92_sentence_answer.

(** the hypotheses are met: "in 5 days" in a sentence, where the clock-time parser also sees the 5 *)
Definition inside_only (e : env) (text : bytes) (ref : ptime) (p : parser) (pre w : bytes) : bool :=
  forallb (fun q => match alone e q text ref with
    | Ret l => forallb (fun r => (Z.of_nat (List.length pre) <=? getIndex r) && (getIndex r <? Z.of_nat (List.length pre) + Z.of_nat (List.length w)) &&
                 (beq (p_pattern q) (p_pattern p) || (textLength r <? Z.of_nat (List.length w)))) l
    | _ => false end) parsers.
Example C92_case : let t := Moment (Cal 2024 2 27) 9 15 0 in let text := bs "The Report is due in 5 Days, at the latest" in
  real_instant t 3 /\ neighbours (mdate t) /\ to_lower text = bs "the report is due " ++ bs "in 5 days" ++ bs ", at the latest" /\ separate (bs "the report is due ") (bs ", at the latest") /\
  phrase_says t deadline (bs "the report is due ") (bs "in 5 days") (bs ", at the latest") (Moment (Cal 2024 3 3) 0 0 0) /\
  inside_only strict_env text (ptime_of t 3) deadline (bs "the report is due ") (bs "in 5 days") = true /\
  main strict_env sort_stable gwords_init text (ptime_of t 3) = Ret (line (bs "2024-Mar-03 00:00:00")).
Proof.
  cbv zeta. split; [inst|]. split; [exists (Cal 2024 2 26), (Cal 2024 2 28); inst|]. split; [reflexivity|]. split; [apply separate_dec; reflexivity|]. split.
  { apply (ps_deadline_date _ _ _ _ (bs "5") "days" UDay (Whole 5)); [|apply (sp_digits (bs "5")); [repeat constructor|discriminate]|cbn; tauto|concrete].
    exists (bs "in"), (bs " "), (bs " "). split; [reflexivity|]. split; [auto|]. repeat split; try discriminate; repeat constructor. }
  split; vm_compute; reflexivity.
Qed.
