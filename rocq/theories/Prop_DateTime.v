(** * A date followed by a clock time is answered with both (C96) *)
From Verif Require Import Base Regex RegexParse Calendar Components Utils Execute Spec View ParserSpec ClockSpec ClockTextSpec CalendarCycle CalendarFacts RegexFacts ResultFacts
  WeekSpec ExecuteFacts ParserRe MatchFacts LocateFacts HistoryFacts ParserFacts CasualFacts DeadlineFacts ISOFacts ISOShape HolidayFacts AgoFacts WeekFacts ZoneFacts MergeFacts ClockFacts FoundFacts OverlapFacts Refiners Main
  P_CasualDate P_CasualTime P_DayOfWeek P_Deadline P_ISO P_MonthName P_MiddleEndian P_TimeAgo P_TimeLater P_TimeExpression P_Holiday P_Week
  Prop_Execute Prop_Casual Prop_Deadline Prop_ISO Prop_Refine Prop_Ago Prop_Week Prop_Clock Prop_Tags Prop_Dates MainFacts Prop_Main Prop_Answers Prop_Format Prop_Found Prop_Sentence Prop_ClockText Prop_ClockAnswer.
From Coq Require Import ZifyBool ZifyNat ZifyN Permutation.
Open Scope string_scope.
Open Scope list_scope.
Open Scope Z_scope.

(** ** Two results inside which all the others start, and which are longer than they are, are the only ones left *)
Definition under (r x : result) : Prop := 0 < textLength x /\ getIndex r <= getIndex x < getIndex r + textLength r /\ (x = r \/ textLength x < textLength r).
Lemma overlap_prefix r suf : 0 < textLength r -> res_copy r = r -> forall l prev,
  by_index (prev :: l) -> Forall (fun x => res_copy x = x) (prev :: l) -> Forall (under r) (prev :: l) ->
  prev = r \/ In r l -> overlap_loop prev (l ++ suf) = overlap_loop r suf.
Proof.
  intros Lr Cr. induction l as [|x l IH]; intros prev B C F D; cbn [overlap_loop app].
  - destruct D as [->|[]]. reflexivity.
  - inversion F as [|? ? (P1 & P2 & P3) F']; subst. inversion F' as [|? ? (X1 & X2 & X3) F2]; subst.
    inversion C as [|? ? Cp C']; subst. inversion C' as [|? ? Cx C2]; subst. unfold res_assign. rewrite Cx.
    pose proof (by_index_all _ _ B) as A. pose proof (by_index_tl _ _ B) as Bt. pose proof (by_index_all _ _ Bt) as Ax. pose proof (by_index_tl _ _ Bt) as Bl.
    assert (Bp : by_index (prev :: l)) by (apply by_index_cons; [exact Bl|inversion A; assumption]).
    assert (K : prev = r \/ (prev <> r /\ getIndex x = getIndex r /\ getIndex prev = getIndex r)).
    { destruct D as [->|I]; [left; reflexivity|]. destruct P3 as [->|P3]; [left; reflexivity|]. right. split; [intros ->; lia|].
      rewrite Forall_forall in A. specialize (A r I). unfold OverlapFacts.starts in A. split; [|lia].
      destruct I as [->|I]; [reflexivity|]. rewrite Forall_forall in Ax. specialize (Ax r I). unfold OverlapFacts.starts in Ax. lia. }
    destruct K as [->|(N & Xi & Pi)].
    + replace (getIndex x <? res_stop r) with true by (unfold res_stop; lia). replace (textLength r <? textLength x) with false by (destruct X3 as [->|X3]; lia).
      apply IH; [exact Bp|constructor; assumption|constructor; [unfold under; auto|exact F2]|left; reflexivity].
    + replace (getIndex x <? res_stop prev) with true by (unfold res_stop; lia).
      destruct D as [->|[->|I]]; [congruence| |].
      * replace (textLength prev <? textLength r) with true by (destruct P3; [congruence|lia]). apply IH; auto.
      * destruct (textLength prev <? textLength x); [apply IH; auto|]. apply IH; [exact Bp|constructor; assumption|constructor; [unfold under; auto|exact F2]|right; exact I].
Qed.
Lemma sorted_split k l : by_index l -> exists a b, l = a ++ b /\ Forall (fun x => getIndex x < k) a /\ Forall (fun x => k <= getIndex x) b.
Proof.
  induction l as [|x l IH]; intros B; [exists [], []; auto|]. destruct (Z_lt_ge_dec (getIndex x) k) as [L|G].
  - destruct (IH (by_index_tl _ _ B)) as (a & b & -> & A1 & A2). exists (x :: a), b. auto.
  - exists [], (x :: l). split; [reflexivity|]. split; [constructor|]. constructor; [lia|]. apply by_index_all in B. rewrite Forall_forall in *. intros y Iy. specialize (B y Iy). unfold OverlapFacts.starts in B. lia.
Qed.
Lemma by_index_app a b : by_index (a ++ b) -> by_index a /\ by_index b.
Proof.
  induction a as [|x a IH]; intros B; [split; [constructor|exact B]|]. cbn [app] in B. destruct (IH (by_index_tl _ _ B)) as [B1 B2]. split; [|exact B2].
  apply by_index_cons; [exact B1|]. apply by_index_all in B. apply Forall_app in B as [B _]. exact B.
Qed.
Lemma overlap_two l d t : by_index l -> Forall (fun x => res_copy x = x) l -> In d l -> In t l -> 0 < textLength d -> 0 < textLength t -> getIndex d + textLength d <= getIndex t ->
  Forall (fun x => under d x \/ under t x) l -> overlap_refine l = [d; t].
Proof.
  intros B C Id It Ld Lt Dt U. destruct (sorted_split (getIndex t) l B) as (a & b & -> & A1 & A2). destruct (by_index_app _ _ B) as [Ba Bb].
  apply Forall_app in C as [Ca Cb]. apply Forall_app in U as [Ua Ub].
  assert (Ia : In d a) by (apply in_app_or in Id as [Id|Id]; [exact Id|]; rewrite Forall_forall in A2; specialize (A2 d Id); lia).
  assert (Ib : In t b) by (apply in_app_or in It as [It|It]; [|exact It]; rewrite Forall_forall in A1; specialize (A1 t It); lia).
  assert (Ud : Forall (under d) a). { rewrite Forall_forall in *. intros x Ix. destruct (Ua x Ix) as [Q|Q]; [exact Q|]. specialize (A1 x Ix). destruct Q as (_ & Q & _). lia. }
  assert (Ut : Forall (under t) b). { rewrite Forall_forall in *. intros x Ix. destruct (Ub x Ix) as [Q|Q]; [|exact Q]. specialize (A2 x Ix). destruct Q as (_ & Q & _). lia. }
  assert (Cd : res_copy d = d) by (rewrite Forall_forall in Ca; auto). assert (Ct : res_copy t = t) by (rewrite Forall_forall in Cb; auto).
  destruct a as [|x a]; [contradiction|]. destruct b as [|y b]; [contradiction|]. cbn [app].
  assert (Cx : res_copy x = x) by (inversion Ca; assumption). assert (Cy : res_copy y = y) by (inversion Cb; assumption).
  assert (M : forall l, Forall (fun x => res_copy x = x) l -> map res_copy l = l). { clear. intros l F. induction F as [|x l Hx F IH]; [reflexivity|]. cbn [map]. rewrite Hx, IH. reflexivity. }
  assert (Lx : isEmpty x = false). { inversion Ud as [|? ? (Q & _) _]; subst. apply filled_nonempty. intros E. unfold textLength in Q. rewrite E in Q. cbn in Q. lia. }
  rewrite refine_loop by exact Lx. rewrite Cx. rewrite M by (apply Forall_app; split; [inversion Ca; assumption|exact Cb]).
  rewrite (overlap_prefix d (y :: b) Ld Cd a x Ba Ca Ud); [|destruct Ia as [->|Ia]; auto].
  cbn [overlap_loop]. replace (getIndex y <? res_stop d) with false by (inversion A2; subst; unfold res_stop; lia). unfold res_assign. rewrite Cd, Cy. f_equal.
  rewrite <- (app_nil_r b). rewrite (overlap_prefix t [] Lt Ct b y Bb Cb Ut); [|destruct Ib as [->|Ib]; auto]. cbn [overlap_loop].
  rewrite filled_nonempty; [reflexivity|]. intros E. unfold textLength in Lt. rewrite E in Lt. cbn in Lt. lia.
Qed.

(** ** What the merging refiners make of a date and a time *)
Lemma mdr_unlinked text a b : solid text a -> solid text b -> Z.of_nat (List.length text) < 2 ^ 31 -> ~ linked text a b -> mdr_refine [a; b] text = Ret [res_copy a; res_copy a].
Proof.
  intros Sa Sb L N. unfold mdr_refine. cbn [map mdr_loop]. change (has_end (res_copy a)) with (has_end a). change (has_end (res_copy b)) with (has_end b).
  destruct (mdr_able_val text (res_copy a) (res_copy b) Sa Sb L) as (x & Ax & Ex). change (between text (res_copy a) (res_copy b)) with (between text a b) in Ex.
  assert (Hx : (if negb (has_end a) && negb (has_end b) then mdr_able text (res_copy a) (res_copy b) else Ret false) = Ret false).
  { rewrite Ax. destruct (negb (has_end a) && negb (has_end b)) eqn:Q; [|reflexivity]. destruct x; [|reflexivity]. exfalso. apply N. unfold linked. split; [destruct (has_end a); [discriminate|reflexivity]|]. split; [destruct (has_end b); [rewrite Bool.andb_false_r in Q; discriminate|reflexivity]|]. apply Ex. reflexivity. }
  rewrite Hx. cbn [bind]. rewrite isEmpty_copy. destruct Sa as (_ & Sa & _). rewrite filled_nonempty; [reflexivity|]. intros E. unfold textLength in Sa. rewrite E in Sa. cbn in Sa. lia.
Qed.
Lemma same_clock r r' : same_result r r' -> no_clock (r_start r) -> no_clock (r_start r').
Proof. intros (_ & _ & _ & E & _) N. rewrite E. exact N. Qed.
Lemma same_stops r r' : same_result r r' -> stops r' = stops r /\ OverlapFacts.starts r' = OverlapFacts.starts r /\ textLength r' = textLength r.
Proof. intros (_ & E1 & E2 & _). unfold stops, OverlapFacts.starts, textLength. rewrite E1, E2. auto. Qed.
Lemma refined_two text d t c h mi s : no_zone text d -> no_zone text t -> res_copy d = d -> res_copy t = t -> no_clock (r_start d) -> time_only t -> has_end d = false -> has_end t = false ->
  on_date (r_start d) c -> getHour (r_start t) = h -> getMinute (r_start t) = mi -> getSeconds (r_start t) = s -> real_moment (Moment c h mi s) ->
  tag_is TExtractTZ d = false -> tag_is TExtractTZ t = false -> Z.of_nat (List.length text) < 2 ^ 31 ->
  0 <= starts d -> 0 < textLength d -> 0 < textLength t -> stops d <= starts t -> stops t <= Z.of_nat (List.length text) ->
  (forall w, In w connectors -> ~ occurs w (skipn (Z.to_nat (stops t)) text)) ->
  exists m rest, (rs <- tz_refine [d; t] text ;; rs <- mdt_refine rs text ;; mdr_refine rs text) = Ret (m :: rest) /\ toDate m = Ret (bs (written (Moment c h mi s))).
Proof.
  intros Zd Zt Cd Ct Nc To Ed Et Od Hh Hm Hs Rm Td Tt L D0 Ld Lt Dt Ln Nw. rewrite tz_refine_total. cbn [bind map]. rewrite Cd, Ct.
  pose proof (proj1 (tz_one_spec text d) Zd) as S1. pose proof (proj1 (tz_one_spec text t) Zt) as S2. cbv zeta in S1, S2.
  set (d' := res_copy (tz_one tz_re text d)) in *. set (t' := res_copy (tz_one tz_re text t)) in *.
  destruct (same_stops _ _ S1) as (P1 & P2 & P3). destruct (same_stops _ _ S2) as (Q1 & Q2 & Q3).
  assert (To' : time_only t') by (unfold time_only; destruct S2 as (_ & _ & _ & E & _); rewrite E; exact To).
  assert (Nc' : no_clock (r_start d')) by (eapply same_clock; eassumption).
  assert (Hd' : has_end d' = false) by (destruct S1 as (_ & _ & _ & _ & E & _); rewrite E; exact Ed).
  assert (Ht' : has_end t' = false) by (destruct S2 as (_ & _ & _ & _ & E & _); rewrite E; exact Et).
  destruct (C59_between_refuted text d' t') as (m & Em & J); auto; [apply Nc'; cbn; tauto|unfold stops, OverlapFacts.starts in *; lia|apply filled_nonempty; intros E; unfold textLength in Q3, Lt; rewrite E in Q3; cbn in Q3; lia|].
  rewrite Em. cbn [bind]. 
  destruct (C50_merge_moment text (res_copy d') (res_copy t') c h mi s m J) as [Dm Pr].
  { cbn [res_copy r_start]. destruct S1 as (_ & _ & _ & E & _). rewrite E. exact Od. }
  { cbn [res_copy r_start]. destruct S2 as (_ & _ & _ & E & _). rewrite E. exact Hh. }
  { cbn [res_copy r_start]. destruct S2 as (_ & _ & _ & E & _). rewrite E. exact Hm. }
  { cbn [res_copy r_start]. destruct S2 as (_ & _ & _ & E & _). rewrite E. exact Hs. }
  destruct J as (_ & _ & Jx & Jt & Je & _ & Jg).
  assert (U : u32 (Z.min (starts (res_copy d')) (starts (res_copy t'))) = starts d').
  { change (starts (res_copy d')) with (starts d'). change (starts (res_copy t')) with (starts t'). rewrite P2, Q2. clear - D0 Ld Lt Dt Ln L. unfold stops, starts in *. rewrite Z.min_l by lia. unfold u32. apply Z.mod_small. lia. }
  rewrite U in Jx.
  assert (Tl : textLength m = stops t - starts d).
  { unfold textLength. rewrite Jt, firstn_length, skipn_length. change (starts (res_copy d')) with (starts d'). change (starts (res_copy t')) with (starts t'). change (stops (res_copy d')) with (stops d'). change (stops (res_copy t')) with (stops t').
    rewrite P1, P2, Q1, Q2. clear - D0 Ld Lt Dt Ln L. unfold stops, starts in *. lia. }
  assert (Sm : solid text m). { unfold solid. unfold stops in *. unfold starts in *. rewrite Jx, Tl, P2. clear - D0 Ld Lt Dt Ln L. lia. }
  assert (St : solid text (res_copy t')). { unfold solid. change (starts (res_copy t')) with (starts t'). change (stops (res_copy t')) with (stops t'). change (textLength (res_copy t')) with (textLength t'). rewrite Q1, Q2, Q3. clear - D0 Ld Lt Dt Ln L. unfold stops, starts in *. lia. }
  exists (res_copy m), [res_copy m]. split.
  - apply mdr_unlinked; auto. intros (_ & _ & w & Iw & O). apply (Nw w Iw). unfold between in O. change (starts (res_copy t')) with (starts t') in O.
    assert (Sm' : stops m = stops t) by (unfold stops at 1; rewrite Tl; unfold starts in *; rewrite Jx, P2; clear; lia). rewrite Sm', Q2 in O. replace (stops t <=? starts t) with false in O by (clear - Lt; unfold stops, starts in *; lia).
    rewrite firstn_all2 in O by (clear; rewrite skipn_length; lia). exact O.
  - rewrite (toDate_same _ _ (same_copy m)). apply Pr; auto. rewrite Jg. cbn [r_tags res_copy]. destruct S1 as (_ & _ & _ & _ & _ & _ & G1). specialize (G1 TExtractTZ). rewrite Td, tag_is_tags in G1.
    destruct (r_tags d' TExtractTZ) as [b|]; [exact G1|]. destruct S2 as (_ & _ & _ & _ & _ & _ & G2). rewrite tag_is_tags. cbn [r_tags res_copy]. rewrite <- tag_is_tags, G2, Tt. reflexivity.
Qed.

(** ** Phrases that name a day and no time *)
Inductive day_says (t : moment) : parser -> bytes -> bytes -> bytes -> cal -> Prop :=
| dy_today pre post : day_says t casual_date pre (bs "today") post (mdate t)
| dy_yesterday pre post c : days_after (-1) (mdate t) c -> day_says t casual_date pre (bs "yesterday") post c
| dy_tomorrow pre w post c : w = bs "tomorrow" \/ w = bs "tmr" -> (if 0 <? mhour t then days_after 1 (mdate t) c else c = mdate t) -> day_says t casual_date pre w post c
| dy_deadline pre w post n v u q c : deadline_phrase w n (bs v) -> spells n q -> In (v, u) full_units -> deadline_target t q u c -> day_says t deadline pre w post c
| dy_iso pre yy mm dd post c : date_loose yy mm dd -> decimal yy = cy c -> decimal mm = cm c -> decimal dd = cd c -> (forall a x, pre = a ++ [x] -> ~ In x (bs ":.+-")) ->
    day_says t iso pre (ymd_text yy mm dd) post c
| dy_week pre kw s s1 n s2 k ws post c : way kw s -> blanks s1 -> s1 <> [] -> week_amount n s2 k -> week_word ws -> not_after_keyword pre ->
    (n = [] -> forall sp b, post = sp ++ bs "week" ++ b -> ~ blanks sp) -> days_after (s * (7 * k)) (mdate t) c -> day_says t week pre (kw ++ s1 ++ n ++ s2 ++ ws) post c
| dy_this_week pre sp post : blanks sp -> not_after_keyword pre -> day_says t week pre (bs "this" ++ sp ++ bs "week") post (mdate t).

Lemma untouched_no_clock l p : untouched l p -> In Hour l -> In Min l -> In Sec l -> no_clock p.
Proof. intros U I1 I2 I3 f [<-|[<-|[<-|[]]]]; unfold untouched in U; rewrite Forall_forall in U; apply U; assumption. Qed.
Lemma date_on p c : date_certain p c \/ date_implied p c -> on_date p c.
Proof. intros [(A & B & C)|(A & B & C)]; repeat split; [exact (certain_value _ _ _ A)|exact (certain_value _ _ _ B)|exact (certain_value _ _ _ C)|exact (implied_value _ _ _ A)|exact (implied_value _ _ _ B)|exact (implied_value _ _ _ C)]. Qed.

Lemma day_found e text t us p pre w post c l : sane e -> real_instant t us -> neighbours (mdate t) -> Z.of_nat (List.length text) < 2 ^ 32 ->
  to_lower text = pre ++ w ++ post -> separate pre post -> day_says t p pre w post c -> real_date c -> (p = casual_date -> forall x b, post = x :: b -> is_space x = false) ->
  alone e p text (ptime_of t us) = Ret l ->
  exists res, In res l /\ stands res pre w /\ has_end res = false /\ on_date (r_start res) c /\ no_clock (r_start res).
Proof.
  intros He H N Hn E Sp Ps Rc Nb El.
  assert (Cas : forall w', casual_phrase w' -> to_lower text = pre ++ w' ++ post -> p = casual_date -> exists res, In res l /\ stands res pre w' /\
     casual_date_means t (r_text res) res /\ has_end res = false).
  { intros w' Cw E' ->. destruct (C85_casual_dates_stand e gwords_init text t us pre w' post He H N Hn Cw E' Sp) as (rs & res & sp & X & I & St & B).
    pose proof (C14_located e casual_date gwords_init text (ptime_of t us) rs res He ltac:(cbn; tauto) ltac:(discriminate) ltac:(discriminate) Hn X I) as Lc.
    unfold alone in El. rewrite X in El. apply RelativeFacts.ret_inj in El. subst l.
    assert (sp = []) as ->.
    { destruct St as [S1 S2]. unfold textLength in Lc. rewrite S1, S2, !Nat2Z.id, E', skipn_app, skipn_all2 in Lc by lia. rewrite Nat.sub_diag in Lc. cbn [skipn app] in Lc.
      rewrite app_length, firstn_app, firstn_all2 in Lc by lia. apply app_inv_head in Lc. replace (List.length w' + List.length sp - List.length w')%nat with (List.length sp) in Lc by lia.
      destruct sp as [|b sp]; [reflexivity|]. destruct post as [|x post]; [discriminate|]. cbn in Lc. injection Lc as Lc _. specialize (Nb eq_refl x post eq_refl). inversion B; congruence. }
    rewrite app_nil_r in St. exists res. split; [exact I|]. split; [exact St|].
    destruct (C18_casual_dates e gwords_init text t us rs res He H X I) as (En & U & M). split; [split; [exact U|exact M]|exact En]. }
  destruct Ps as [pre post|pre post c D|pre w post c W D|pre w post n v u q c D1 D2 D3 D4|pre yy mm dd post c D1 D2 D3 D4 D5|pre kw s s1 n s2 k ws post c D1 D2 D3 D4 D5 D6 D7 D8|pre sp post D1 D2].
  - destruct (Cas (bs "today") ltac:(left; cbn; tauto) E eq_refl) as (res & I & St & (U & M) & En). exists res. do 3 (split; [assumption|]).
    rewrite (proj2 St) in M. destruct M as [(X & _)|[(_ & Dc & V)|[(X & _)|[(s & c & X & _)|[(s & c & X & _)|(s & c & [X|X] & _)]]]]]; try (cbn in X; discriminate).
    split; [apply date_on; auto|apply (untouched_no_clock _ _ V); cbn; tauto].
  - destruct (Cas (bs "yesterday") ltac:(left; cbn; tauto) E eq_refl) as (res & I & St & (U & M) & En). exists res. do 3 (split; [assumption|]).
    rewrite (proj2 St) in M. destruct M as [(X & _)|[(X & _)|[(X & _)|[(s & c' & X & _)|[(s & c' & X & _ & Rc' & Dd & Dc & Hh & V)|(s & c' & [X|X] & _)]]]]]; try (cbn in X; discriminate).
    rewrite (days_after_fun _ _ _ _ D Dd). split; [apply date_on; auto|]. intros f [<-|[<-|[<-|[]]]]; [apply Hh|..]; unfold untouched in V; rewrite Forall_forall in V; apply V; cbn; tauto.
  - destruct (Cas w ltac:(left; destruct W as [-> | ->]; cbn; tauto) E eq_refl) as (res & I & St & (U & M) & En). exists res. do 3 (split; [assumption|]).
    rewrite (proj2 St) in M. destruct M as [(X & _)|[(X & _)|[(X & _)|[(s & c' & X & _)|[(s & c' & X & _)|(s & c' & X & _ & Rc' & Dd & Dc & V)]]]]]; try (exfalso; destruct W as [-> | ->]; cbn in X; discriminate).
    rewrite (same_when _ _ _ _ _ D Dd). split; [apply date_on; auto|apply (untouched_no_clock _ _ V); cbn; tauto].
  - assert (Iu : In (bs v) (map bs all_units)) by (apply in_map; apply in_or_app; left; apply (in_map fst) in D3; exact D3).
    pose proof (proj1 (proj1 H)) as Rt.
    assert (Hm : forall k, q = Whole k -> k <= INT_MAX).
    { intros k ->. unfold INT_MAX. destruct u; cbn [deadline_target] in D4; try contradiction; try (destruct D4 as [_ T]; lia).
      - destruct (day_fits t k c Rt Rc D4) as (_ & L & _). lia.
      - destruct (day_fits t (7 * k) c Rt Rc D4) as (_ & L & _). lia. }
    destruct (C86_deadlines_stand e text t us pre w post n (bs v) q l He H Hn D1 D2 Iu Hm E Sp El) as (res & I & St & En & U & M). exists res. do 3 (split; [assumption|]). specialize (M v u eq_refl D3).
    destruct (target_reached _ _ _ _ _ D4 M) as (_ & D & V). split; [apply date_on; auto|apply (untouched_no_clock _ _ V); cbn; tauto].
  - pose proof (proj1 Rc) as V. unfold valid in V.
    assert (B1 : 1 <= decimal mm <= 12) by (rewrite D3; lia). assert (B2 : 1 <= decimal dd <= 31) by (rewrite D4; pose proof (month_len_bounds (cy c) (cm c)); lia).
    destruct (C87_iso_stand e gwords_init text (ptime_of t us) pre yy mm dd None post l He Hn D1 B1 B2 I) as (res & Ir & St & En & Dc & _ & U); auto.
    { unfold iso_text. rewrite app_nil_r. exact E. }
    unfold iso_text in St. rewrite app_nil_r in St. exists res. do 3 (split; [assumption|]).
    rewrite D2, D3, D4 in Dc. destruct c as [y m d]. split; [apply date_on; auto|apply (untouched_no_clock _ _ U); cbn; tauto].
  - destruct (C89_weeks_stand e [] text t us pre kw s s1 n s2 k ws post l He ltac:(intros ? []) H Hn D1 D2 D3 D4 D5 E Sp D6 D7 El) as (res & c' & I & St & En & Da & _ & Di & U).
    exists res. do 3 (split; [assumption|]). rewrite (days_after_fun _ _ _ _ D8 Da). split; [apply date_on; auto|apply (untouched_no_clock _ _ U); cbn; tauto].
  - destruct (C89_this_week_stands e [] text t us pre sp post l He ltac:(intros ? []) H Hn D1 E Sp D2 El) as (res & I & St & En & Di & U).
    exists res. do 3 (split; [assumption|]). split; [apply date_on; auto|apply (untouched_no_clock _ _ U); cbn; tauto].
Qed.
Lemma day_parser t p pre w post c : day_says t p pre w post c -> w <> [] /\ In p [casual_date; casual_time; deadline; iso; holiday; week] /\ time_expression <> p.
Proof.
  intros H. destruct H; (split; [|split; [cbn; tauto|discriminate]]); try discriminate.
  - match goal with X : _ \/ _ |- _ => destruct X as [-> | ->]; discriminate end.
  - match goal with X : deadline_phrase _ _ _ |- _ => destruct X as (kw & s1 & s2 & -> & [-> | ->] & _); discriminate end.
  - unfold ymd_text. destruct yy; [|discriminate]. destruct mm; discriminate.
  - match goal with X : way _ _ |- _ => destruct X as [[-> _]|[-> _]]; discriminate end.
Qed.

(** ** The text after the time *)
Lemma rest_after text y lead intro c k q gap post rest res : text = (y ++ lead ++ intro) ++ c ++ post -> lead_sign lead -> post = gap ++ rest -> gap = [] \/ gap = bs " " -> clock_words c k q ->
  getIndex res = Z.of_nat (List.length y) -> r_text res = intro ++ c ++ gap ->
  let u := skipn (Z.to_nat (stops res)) text in (exists g, post = g ++ u) \/ exists d, ender d = true /\ u = d :: post.
Proof.
  intros Et Hl Ep Hg Cw Ix Tx. cbv zeta.
  assert (Es : stops res = Z.of_nat (List.length y + List.length (intro ++ c ++ gap))) by (unfold stops, textLength; rewrite Ix, Tx; lia).
  rewrite Es, Nat2Z.id. rewrite Et, <- !app_assoc. rewrite skip_tail.
  destruct Hl as [->|(x & -> & _)].
  - replace ([] ++ intro ++ c ++ post) with ((intro ++ c ++ gap) ++ rest) by (rewrite Ep, <- !app_assoc; reflexivity).
    replace (List.length (intro ++ c ++ gap)) with (List.length (intro ++ c ++ gap) + 0)%nat by lia. rewrite skip_tail. left. exists gap. exact Ep.
  - destruct Hg as [->| ->].
    + right. destruct (words_end _ _ _ Cw) as (a & d & Ec & Hd). exists d. split; [exact Hd|].
      replace ([x] ++ intro ++ c ++ post) with ((x :: intro ++ a) ++ d :: post) by (rewrite Ec; cbn; rewrite <- !app_assoc; reflexivity).
      replace (List.length (intro ++ c ++ [])) with (List.length (x :: intro ++ a) + 0)%nat by (rewrite Ec; cbn [List.length]; rewrite !app_length; cbn; lia). rewrite skip_tail. reflexivity.
    + left. exists []. replace ([x] ++ intro ++ c ++ post) with ((x :: intro ++ c) ++ post) by (cbn; rewrite <- !app_assoc; reflexivity).
      replace (List.length (intro ++ c ++ bs " ")) with (List.length (x :: intro ++ c) + 0)%nat by (cbn [List.length]; rewrite !app_length; cbn; lia). rewrite skip_tail. reflexivity.
Qed.
Lemma no_connector_end d post : ender d = true -> clock_stop post -> (forall w, In w connectors -> ~ occurs w post) -> forall w, In w connectors -> ~ occurs w (d :: post).
Proof.
  intros Hd St N w Iw (a & b & E). destruct a as [|a0 a]; [|cbn in E; injection E as _ E; apply (N w Iw); exists a, b; exact E]. cbn [app] in E.
  assert (Q : w = bs "-" \/ exists c1 c2 w', w = c1 :: c2 :: w' /\ is_word c2 = true).
  { cbn in Iw. destruct Iw as [<-|[<-|[<-|[<-|[]]]]]; [right|right|right|left; reflexivity]; cbn; eauto. }
  destruct Q as [->|(c1 & c2 & w' & -> & Hc)].
  - cbn in E. injection E as -> _. discriminate Hd.
  - cbn in E. injection E as _ E. destruct post as [|x post]; [discriminate|]. injection E as -> _. destruct St as [W _]. congruence.
Qed.
Lemma words_start c k q : clock_words c k q -> exists x c', c = x :: c' /\ is_word x = true.
Proof.
  intros (p & -> & (h & Hh) & _). destruct Hh as [| |w D L]; [cbn; eauto|cbn; eauto|]. destruct w as [|x w]; [cbn in L; lia|]. cbn. exists x, (w ++ p ++ q). split; [reflexivity|].
  inversion D as [|? ? Dx _]; subst. unfold is_word. rewrite Dx, ?Bool.orb_true_r. reflexivity.
Qed.

(** ** The answer *)
(** the parser of clock times finds one result after the day phrase, and before that only shorter ones inside it; whatever the other parsers find
    begins inside the phrase or the time and is shorter than it *)
Definition only_pair (e : env) (text : bytes) (ref : ptime) (p : parser) (pre w mid c : bytes) : Prop :=
  let first := Z.of_nat (List.length pre) in let past := first + Z.of_nat (List.length w) in let second := past + Z.of_nat (List.length mid) in
  (exists l r, x_res (execute e time_expression gwords_init text ref) = Ret l /\ filter (fun r => past <=? getIndex r) l = [r] /\
     forall r, In r l -> getIndex r < past -> first <= getIndex r /\ getIndex r + textLength r < second /\ textLength r < Z.of_nat (List.length w)) /\
  forall q, In q other_parsers -> exists l, x_res (execute e q gwords_init text ref) = Ret l /\ forall r, In r l ->
     (first <= getIndex r < past /\ (q = p \/ textLength r < Z.of_nat (List.length w))) \/
     (second <= getIndex r < second + Z.of_nat (List.length c) - 1 /\ textLength r < Z.of_nat (List.length c)).
(** the day [d] at the clock time *)
Definition day_moment (d : cal) (k : clock) (h mi : Z) : moment := Moment d (on_clock (ck_mark k) h) mi (match ck_sec k with [] => 0 | ss => decimal ss end).

Lemma day_in p : In p [casual_date; casual_time; deadline; iso; holiday; week] -> In p other_parsers.
Proof. cbn. tauto. Qed.
Lemma main_two e sortf text ref rs d t : sane e -> is_sort sortf -> all_alone e parsers text ref = Ret rs -> In d rs -> In t rs -> getIndex d + textLength d <= getIndex t ->
  (forall r, In r rs -> r = d \/ r = t \/ (getIndex d <= getIndex r < getIndex d + textLength d /\ textLength r < textLength d) \/ (getIndex t <= getIndex r < getIndex t + textLength t /\ textLength r < textLength t)) ->
  main e sortf gwords_init text ref = (rs <- (rs <- tz_refine [d; t] (to_lower text) ;; rs <- mdt_refine rs (to_lower text) ;; mdr_refine rs (to_lower text)) ;; show rs).
Proof.
  intros He Hs H Id It Dt D. rewrite main_alone, H. cbn [bind]. destruct (Hs rs) as [P B].
  assert (Cp : forall x, In x rs -> res_copy x = x).
  { intros x Ix. apply (all_alone_in _ _ _ _ _ H) in Ix as (p & l & Ip & Xp & Il). pose proof (execute_copies _ _ _ _ _ _ Xp) as E.
    clear - E Il. induction l as [|y l IH]; [contradiction|]. cbn [map] in E. injection E as E1 E2. destruct Il as [<-|Il]; auto. }
  assert (Ps : forall x, In x rs -> 0 < textLength x).
  { intros x Ix. apply (all_alone_in _ _ _ _ _ H) in Ix as (p & l & Ip & Xp & Il). apply in_all in Ip.
    pose proof (result_text _ _ _ _ _ _ _ He Ip Xp Il) as T. unfold textLength; destruct (r_text x); [congruence|cbn [List.length]; lia]. }
  assert (O : overlap_refine (sortf rs) = [d; t]).
  { apply overlap_two; auto.
    - apply Forall_forall; intros x Ix; apply Cp; eapply Permutation_in; [apply Permutation_sym; exact P|exact Ix].
    - exact (Permutation_in _ P Id).
    - exact (Permutation_in _ P It).
    - apply Forall_forall. intros x Ix. apply (Permutation_in _ (Permutation_sym P)) in Ix. pose proof (Ps x Ix). unfold under. pose proof (Ps d Id). pose proof (Ps t It).
      destruct (D x Ix) as [->|[->|[Q|Q]]]; [left|right|left|right]; repeat split; auto; lia. }
  unfold run_refiners. rewrite O. reflexivity.
Qed.

(** a result of the parser [p] that is reported to stand after [pre] and to be as long as [w], which names the day [d] and no time *)
Definition day_result (e : env) (text : bytes) (ref : ptime) (p : parser) (pre w : bytes) (d : cal) : Prop :=
  forall l, alone e p text ref = Ret l -> exists res, In res l /\ (getIndex res = Z.of_nat (List.length pre) /\ textLength res = Z.of_nat (List.length w)) /\ has_end res = false /\ on_date (r_start res) d /\ no_clock (r_start res) /\ tag_is TTimeExpression res = false.
Lemma stands_place res pre w : stands res pre w -> getIndex res = Z.of_nat (List.length pre) /\ textLength res = Z.of_nat (List.length w).
Proof. intros [E1 E2]. split; [exact E1|unfold textLength; rewrite E2; reflexivity]. Qed.
Lemma pair_main e sortf text t us p pre w mid c k q post d h mi : sane e -> is_sort sortf -> real_instant t us -> Z.of_nat (List.length text) < 2 ^ 31 ->
  to_lower text = pre ++ w ++ mid ++ c ++ post -> In p other_parsers -> In p parsers -> w <> [] -> mid <> [] -> day_result e text (ptime_of t us) p pre w d -> real_date d ->
  clock_words c k q -> clear_before (pre ++ w ++ mid) -> clear_after q post -> clock_time k h mi -> seconds_fine k -> on_clock (ck_mark k) h < 24 ->
  ~ zone_follows post -> (forall v, In v connectors -> ~ occurs v post) -> only_pair e text (ptime_of t us) p pre w mid c ->
  main e sortf gwords_init text (ptime_of t us) = Ret (line (bs (written (day_moment d k h mi)))).
Proof.
  intros He Hs H Hn E Jp Ip' Nw Nm Ds Rd Cw Cb Ca Ct Sf H24 Nz Nc [(lt & rt & Et & Ef & Bt) Al].
  assert (Hn2 : Z.of_nat (List.length text) < 2 ^ 32) by (clear - Hn; lia).
  destruct (words_start _ _ _ Cw) as (c0 & c' & Ec & Hc0).
  assert (Lm : (1 <= List.length mid)%nat) by (destruct mid; [congruence|cbn [List.length]; clear; lia]).
  assert (Lc : (1 <= List.length c)%nat) by (rewrite Ec; cbn [List.length]; clear; lia).
  assert (E2 : to_lower text = (pre ++ w ++ mid) ++ c ++ post) by (rewrite E, <- !app_assoc; reflexivity).
  destruct (clock_stands e gwords_init text t us lt (pre ++ w ++ mid) c k q post h mi He H Hn2 E2 Cw Cb Ca Ct Sf Et)
    as (res & y & lead & intro & gap & rest & It & Ey & Hl & Op & Ep & Hg & Ix & Tx & En & At & T1 & T2).
  assert (Ly : Z.of_nat (List.length pre) + Z.of_nat (List.length w) + Z.of_nat (List.length mid) = getIndex res + Z.of_nat (List.length lead) + Z.of_nat (List.length intro)).
  { rewrite Ix. apply (f_equal (@List.length ascii)) in Ey. rewrite !app_length in Ey. clear - Ey. lia. }
  assert (Ll : Z.of_nat (List.length lead) <= 1) by (destruct Hl as [->|(x & -> & _)]; cbn [List.length]; clear; lia).
  assert (Lt : textLength res = Z.of_nat (List.length intro) + Z.of_nat (List.length c) + Z.of_nat (List.length gap)) by (unfold textLength; rewrite Tx, !app_length; clear; lia).
  set (first := Z.of_nat (List.length pre)) in *. set (past := first + Z.of_nat (List.length w)) in *. set (second := past + Z.of_nat (List.length mid)) in *.
  assert (Late : past <= getIndex res).
  { destruct (Z_lt_ge_dec (getIndex res) past) as [L|G]; [|clear - G; lia]. destruct (Bt res It L) as (_ & B & _). clear - B Lt Ly Ll Lm Lc. lia. }
  assert (Er : rt = res). { assert (I : In res (filter (fun r => past <=? getIndex r) lt)) by (apply filter_In; split; [exact It|clear - Late; lia]). rewrite Ef in I. destruct I as [I|[]]; exact I. }
  subst rt.
  destruct (Al p Jp) as (lp & Elp & Blp).
  destruct (Ds lp Elp) as (dr & Id & (Dx & Ld) & De & Do & Dn & Dut).
  assert (Lw : 0 < Z.of_nat (List.length w)) by (destruct w; [congruence|cbn [List.length]; clear; lia]).
  assert (A : exists rs, all_alone e parsers text (ptime_of t us) = Ret rs).
  { assert (Q : exists rss, Forall2 (fun p l => alone e p text (ptime_of t us) = Ret l) parsers rss).
    { assert (Al' : forall p, In p parsers -> exists l, alone e p text (ptime_of t us) = Ret l).
      { intros q0 Iq. apply others in Iq as [<-|Iq]; [eexists; exact Et|]. destruct (Al q0 Iq) as (l & El & _). eexists; exact El. }
      revert Al'. clear. generalize parsers as ps. induction ps as [|p ps IH]; intros Al; [exists []; constructor|]. destruct (Al p (or_introl eq_refl)) as (l & El).
      destruct IH as [rss F]; [intros q' I'; apply Al; right; exact I'|]. exists (l :: rss). constructor; assumption. }
    destruct Q as [rss F]. exists (List.concat rss). apply all_alone_ret. eauto. }
  destruct A as [rs A]. assert (It' : In time_expression parsers) by (cbn; tauto).
  assert (Ir : In res rs) by (apply (all_alone_in _ _ _ _ _ A); exists time_expression, lt; split; [exact It'|split; [exact Et|exact It]]).
  assert (Idr : In dr rs) by (apply (all_alone_in _ _ _ _ _ A); exists p, lp; split; [exact Ip'|split; [exact Elp|exact Id]]).
  assert (Apart : getIndex dr + textLength dr <= getIndex res) by (rewrite Dx, Ld; fold first; clear - Late; lia).
  rewrite (main_two e sortf text (ptime_of t us) rs dr res He Hs A Idr Ir Apart).
  - assert (Cp : forall x, In x rs -> res_copy x = x).
    { intros x Ixx. apply (all_alone_in _ _ _ _ _ A) in Ixx as (p0 & l & Ip0 & Xp & Il). pose proof (execute_copies _ _ _ _ _ _ Xp) as E0.
      clear - E0 Il. induction l as [|y l IH]; [contradiction|]. cbn [map] in E0. injection E0 as E1 E2. destruct Il as [<-|Il]; auto. }
    assert (Sl : stops res <= Z.of_nat (List.length (to_lower text))).
    { pose proof (C13_results_in_order _ _ _ _ _ _ He (in_all _ It') Hn2 Et) as O. assert (Lo : List.length (to_lower text) = List.length text) by (unfold to_lower; apply map_length). rewrite Lo.
      clear - O It. unfold stops. induction O as [|x l H1 H2 H3 O IH]; [contradiction|]. destruct It as [<-|It]; [exact H2|exact (IH It)]. }
    assert (Hgap : gap = [] \/ gap = bs " ") by (rewrite Hg; destruct post as [|b0 post0]; [auto|]; cbn; destruct (Ascii.eqb b0 " "); auto).
    pose proof (rest_after (to_lower text) y lead intro c k q gap post rest res) as Ra. rewrite E2, Ey in Ra. specialize (Ra eq_refl Hl Ep Hgap Cw Ix Tx). rewrite <- Ey, <- E2 in Ra. cbv zeta in Ra.
    pose proof (at_time_denotes _ _ _ _ _ Sf At) as (_ & _ & _ & G1 & G2 & G3). unfold clock_moment in G1, G2, G3. cbn [mhour mmin msec] in G1, G2, G3.
    destruct (refined_two (to_lower text) dr res d (on_clock (ck_mark k) h) mi (match ck_sec k with [] => 0 | ss => decimal ss end)) as (m & ms & M1 & M2); auto.
    + apply untimed_no_zone. exact Dut.
    + apply (clock_no_zone (to_lower text) y lead intro c k q gap post rest); auto; [rewrite E2, Ey; reflexivity|apply Ca].
    + destruct At as (_ & _ & _ & (_ & U1 & U2) & _). split; [apply U1|apply U2].
    + pose proof (clock_real t us c k q h mi H Cw Ct Sf H24) as R. unfold real_moment in *. unfold clock_moment in R. cbn [mdate mhour mmin msec] in R |- *. split; [exact Rd|apply R].
    + apply (C73_no_refiner_tag e p gwords_init text (ptime_of t us) lp dr TExtractTZ He (in_all _ Ip') Elp Id). left. reflexivity.
    + apply (C73_no_refiner_tag e time_expression gwords_init text (ptime_of t us) lt res TExtractTZ He (in_all _ It') Et It). left. reflexivity.
    + unfold to_lower. rewrite map_length. exact Hn.
    + unfold OverlapFacts.starts. rewrite Dx. unfold first. clear. lia.
    + rewrite Ld. exact Lw.
    + rewrite Lt. clear - Lc. lia.
    + intros v Iv Ov. destruct Ra as [(g & Eg)|(d0 & Hd & Eu)].
      * destruct Ov as (a & b & Eo). rewrite Eo in Eg. apply (Nc v Iv). exists (g ++ a), b. rewrite Eg, <- app_assoc. reflexivity.
      * rewrite Eu in Ov. exact (no_connector_end d0 post Hd (proj1 Ca) Nc v Iv Ov).
    + rewrite M1. cbn [bind show]. rewrite M2. reflexivity.
  - intros r Irr. apply (all_alone_in _ _ _ _ _ A) in Irr as (p0 & l0 & Ip0 & X0 & Il0). apply others in Ip0 as [<-|Ip0].
    + unfold alone in X0. rewrite Et in X0. apply RelativeFacts.ret_inj in X0. subst l0. destruct (Z_lt_ge_dec (getIndex r) past) as [L|G].
      * destruct (Bt r Il0 L) as (B1 & B2 & B3). right. right. left. rewrite Dx, Ld. fold first. clear - B1 B2 B3 L Lw. lia.
      * right. left. assert (I : In r (filter (fun r => past <=? getIndex r) lt)) by (apply filter_In; split; [exact Il0|clear - G; lia]). rewrite Ef in I. destruct I as [I|[]]; auto.
    + destruct (Al p0 Ip0) as (l1 & El1 & B1). unfold alone in X0. rewrite El1 in X0. apply RelativeFacts.ret_inj in X0. subst l1. destruct (B1 r Il0) as [(B2 & [->|B3])|(B2 & B3)].
      * left. rewrite Elp in El1. apply RelativeFacts.ret_inj in El1. subst l0.
        pose proof (result_text _ _ _ _ _ _ _ He (in_all p Ip') Elp Il0) as T0.
        apply (in_order_unique (Z.of_nat (List.length text)) lp); auto.
        { apply (C13_results_in_order _ _ _ _ _ _ He (in_all p Ip') Hn2 Elp). }
        { rewrite Ld. exact Lw. }
        { unfold textLength. destruct (r_text r); [congruence|cbn [List.length]; clear; lia]. }
        { rewrite Dx, Ld. fold first. clear - B2. lia. }
      * right. right. left. rewrite Dx, Ld. fold first. clear - B2 B3. lia.
      * right. right. right. rewrite Lt. clear - B2 B3 Ly Ll Lc. lia.
Qed.

(** C96.  A text contains a phrase [w] naming the day [d], later a clock time [c] standing clear as in C93, no connecting word ("and", "to", "through", "-") and no
    zone abbreviation after the time, and nothing else is recognised.  Then the program prints that day at that time.
    Weaker than the claim: "today", "tomorrow" and "yesterday" must not be followed directly by a blank, and no connecting word may follow anywhere in the text. *)
Theorem C96_day_and_time_partial : forall e sortf text t us p pre w mid c k q post d h mi, sane e -> is_sort sortf -> real_instant t us -> neighbours (mdate t) -> Z.of_nat (List.length text) < 2 ^ 31 ->
  to_lower text = pre ++ w ++ mid ++ c ++ post -> separate pre (mid ++ c ++ post) -> day_says t p pre w (mid ++ c ++ post) d -> real_date d ->
  (p = casual_date -> forall x b, mid = x :: b -> is_space x = false) ->
  clock_words c k q -> clear_before (pre ++ w ++ mid) -> clear_after q post -> clock_time k h mi -> seconds_fine k -> on_clock (ck_mark k) h < 24 ->
  ~ zone_follows post -> (forall v, In v connectors -> ~ occurs v post) -> only_pair e text (ptime_of t us) p pre w mid c ->
  main e sortf gwords_init text (ptime_of t us) = Ret (line (bs (written (day_moment d k h mi)))).
Proof.
  intros e sortf text t us p pre w mid c k q post d h mi He Hs H N Hn E Sp Ds Rd Nb Cw Cb Ca Ct Sf H24 Nz Nc Al.
  destruct (day_parser _ _ _ _ _ _ Ds) as (Nw & Ip & _). destruct (words_start _ _ _ Cw) as (c0 & c' & Ec & Hc0).
  assert (Nm : mid <> []). { intros ->. destruct Sp as [_ Sp]. cbn [app] in Sp. rewrite Ec in Sp. specialize (Sp c0 (c' ++ post) eq_refl). congruence. }
  apply (pair_main e sortf text t us p pre w mid c k q post d h mi); auto; [exact (day_in p Ip)|exact (plain_in p Ip)|].
  intros lp Elp. assert (Hn2 : Z.of_nat (List.length text) < 2 ^ 32) by (clear - Hn; lia).
  destruct (day_found e text t us p pre w (mid ++ c ++ post) d lp He H N Hn2 E Sp Ds Rd) as (dr & Id & Sd & De & Do & Dn); [|exact Elp|].
  { intros Q x b Eb. destruct mid as [|x' mid]; [congruence|]. cbn in Eb. injection Eb as -> _. eapply Nb; [exact Q|reflexivity]. }
  exists dr. split; [exact Id|]. split; [exact (stands_place _ _ _ Sd)|]. repeat (split; [assumption|]). exact (plain_untimed e p text _ lp dr He Ip Elp Id).
Qed.
Print Assumptions C96_day_and_time_partial.

(** C96, false in general: before a blank, the result of "tomorrow" includes the blank and the time is dropped as overlapping; a holiday carries a time of its own
    and is not merged; a connecting word later in the text turns the moment into a range; and the zone of the time is lost. *)
Definition feb27 : ptime := ptime_of (Moment (Cal 2024 2 27) 9 15 0) 3.
Theorem C96_day_and_time_refuted :
  main strict_env sort_stable gwords_init (bs "tomorrow at 5 pm") feb27 = Ret (line (bs "2024-Feb-28 00:00:00")) /\
  main strict_env sort_stable gwords_init (bs "labor day at 5 pm") feb27 = Ret (line (bs "2024-Sep-02 00:00:00")) /\
  main strict_env sort_stable gwords_init (bs "We meet in 5 days at 6 pm and bring cake") feb27 = Ret (line (bs "2024-Mar-03 18:00:00 - 2024-Mar-03 18:00:00")) /\
  main strict_env sort_stable gwords_init (bs "We meet in 5 days at 6 pm (est)") feb27 = Ret (line (bs "2024-Mar-03 18:00:00")).
Proof. repeat split; vm_compute; reflexivity. Qed.
Print Assumptions C96_day_and_time_refuted.

Definition pair_only (e : env) (text : bytes) (ref : ptime) (p : parser) (pre w mid c : bytes) : bool :=
  let first := Z.of_nat (List.length pre) in let past := first + Z.of_nat (List.length w) in let second := past + Z.of_nat (List.length mid) in
  match x_res (execute e time_expression gwords_init text ref) with
  | Ret l => Nat.eqb (List.length (filter (fun r => past <=? getIndex r) l)) 1 &&
      forallb (fun r => (past <=? getIndex r) || (first <=? getIndex r) && (getIndex r + textLength r <? second) && (textLength r <? Z.of_nat (List.length w))) l
  | _ => false end &&
  forallb (fun q => match x_res (execute e q gwords_init text ref) with
    | Ret l => forallb (fun r => (first <=? getIndex r) && (getIndex r <? past) && (textLength r <? Z.of_nat (List.length w)) ||
                 (second <=? getIndex r) && (getIndex r <? second + Z.of_nat (List.length c) - 1) && (textLength r <? Z.of_nat (List.length c))) l ||
               beq (p_pattern q) (p_pattern p) && forallb (fun r => (first <=? getIndex r) && (getIndex r <? past)) l
    | _ => false end) other_parsers.
Lemma pair_only_ok e text ref p pre w mid c : (forall q, In q other_parsers -> beq (p_pattern q) (p_pattern p) = true -> q = p) -> pair_only e text ref p pre w mid c = true -> only_pair e text ref p pre w mid c.
Proof.
  intros Same. unfold pair_only, only_pair. revert Same. generalize other_parsers. intros ps Same H. apply andb_prop in H as [H1 H2]. cbv zeta in *. split.
  - destruct (x_res (execute e time_expression gwords_init text ref)) as [l| | | |]; try discriminate. apply andb_prop in H1 as [H1 H3]. exists l. apply Nat.eqb_eq in H1.
    match goal with |- context [filter ?f l] => destruct (filter f l) as [|r [|]] eqn:F; [exfalso; cbn in H1; clear - H1; lia| |exfalso; cbn in H1; clear - H1; lia] end.
    exists r. split; [reflexivity|]. split; [reflexivity|]. intros r0 I0 L0. rewrite forallb_forall in H3. specialize (H3 r0 I0). clear - H3 L0. lia.
  - intros q Iq. rewrite forallb_forall in H2. specialize (H2 q Iq). destruct (x_res (execute e q gwords_init text ref)) as [l| | | |]; try discriminate. exists l. split; [reflexivity|]. intros r Ir.
    apply Bool.orb_true_iff in H2 as [H2|H2]; [rewrite forallb_forall in H2; specialize (H2 r Ir); clear - H2; lia|].
    apply andb_prop in H2 as [H2 H3]. rewrite forallb_forall in H3. specialize (H3 r Ir). left. split; [clear - H3; lia|]. left. apply Same; assumption.
Qed.
Lemma same_deadline q : In q other_parsers -> beq (p_pattern q) (p_pattern deadline) = true -> q = deadline.
Proof. intros I E. cbn in I. repeat (destruct I as [<-|I]; [first [reflexivity|vm_compute in E; discriminate E]|]). contradiction. Qed.
Example C96_case : let t := Moment (Cal 2024 2 27) 9 15 0 in let k := Clock (bs "5") (bs "30") [] Pm in let text := bs "We meet in 5 Days at 5:30 PM, bring cake" in
  real_instant t 3 /\ neighbours (mdate t) /\ to_lower text = bs "we meet " ++ bs "in 5 days" ++ bs " at " ++ bs "5:30 pm" ++ bs ", bring cake" /\ separate (bs "we meet ") (bs " at " ++ bs "5:30 pm" ++ bs ", bring cake") /\
  day_says t deadline (bs "we meet ") (bs "in 5 days") (bs " at " ++ bs "5:30 pm" ++ bs ", bring cake") (Cal 2024 3 3) /\ real_date (Cal 2024 3 3) /\
  clock_words (bs "5:30 pm") k (bs " pm") /\ clear_before (bs "we meet " ++ bs "in 5 days" ++ bs " at ") /\ clear_after (bs " pm") (bs ", bring cake") /\ clock_time k 5 30 /\ seconds_fine k /\
  ~ zone_follows (bs ", bring cake") /\ (forall v, In v connectors -> ~ occurs v (bs ", bring cake")) /\
  only_pair strict_env text (ptime_of t 3) deadline (bs "we meet ") (bs "in 5 days") (bs " at ") (bs "5:30 pm") /\
  main strict_env sort_stable gwords_init text (ptime_of t 3) = Ret (line (bs "2024-Mar-03 17:30:00")).
Proof.
  cbv zeta. split; [inst|]. split; [exists (Cal 2024 2 26), (Cal 2024 2 28); inst|]. split; [reflexivity|]. split; [apply separate_dec; reflexivity|]. split.
  { apply (dy_deadline _ _ _ _ (bs "5") "days" UDay (Whole 5)); [|apply (sp_digits (bs "5")); [repeat constructor|discriminate]|cbn; tauto|concrete].
    exists (bs "in"), (bs " "), (bs " "). split; [reflexivity|]. split; [auto|]. repeat split; try discriminate; repeat constructor. }
  split; [inst|]. split; [exact case_words|].
  split; [apply (clear_letter (bs "we meet in 5 days a") "t"%char (bs " ")); [repeat constructor|discriminate|reflexivity|cbn; intuition discriminate]|].
  split; [apply (clear_sign (bs " pm") ","%char (bs " bring cake")); [discriminate|reflexivity|reflexivity|cbn; intuition discriminate]|].
  split; [split; [apply (ts_minutes (bs "5") (bs "30") 5); [apply (hs_digits (bs "5")); [repeat constructor|cbn; lia]|repeat constructor|cbn; lia]|]; cbn; lia|].
  split; [left; reflexivity|]. split.
  { intros (abbr & z & (sp & lp & rp & E & B & Hl & _ & [L _] & F) & _). destruct sp as [|b sp]; [|cbn in E; injection E as <- _; inversion B; discriminate].
    destruct Hl as [->| ->]; [|discriminate]. destruct abbr as [|a abbr]; [cbn in L; lia|]. cbn in E. injection E as <- _. inversion F; discriminate. }
  split.
  { intros v Iv. cbn in Iv. destruct Iv as [<-|[<-|[<-|[<-|[]]]]]; apply Alphabet.containsb_ok; vm_compute; reflexivity. }
  split; [apply pair_only_ok; [exact same_deadline|vm_compute; reflexivity]|vm_compute; reflexivity].
Qed.
