(** * When the week parser returns (C84) *)
From Verif Require Import Base Regex RegexParse Calendar Components Utils Execute Spec View ParserSpec WeekSpec CalendarCycle CalendarFacts RegexFacts ResultFacts Template
  ExecuteFacts ParserRe MatchFacts FuelFacts LocateFacts HistoryFacts ParserFacts CasualFacts NumberFacts DeadlineFacts ISOFacts HolidayFacts WeekFacts Main P_Deadline P_Week Prop_Execute Prop_Casual Prop_Ago Prop_Week.
From Coq Require Import ZifyBool ZifyNat ZifyN.
Open Scope string_scope.
Open Scope list_scope.
Open Scope Z_scope.

(** execute() returns if every extract does, the word table being in a given set of states *)
Lemma exec_loop_total_table e p r ref text (P : gwords -> Prop) : (1 <= min_len r)%nat ->
  (forall off m g idx, P g -> search true r (skipn off text) = Some m ->
     exists g' res, p_extract p e g (skipn off text) m ref idx = (g', Ret res) /\ P g' /\ hasPossibleDates res = true) ->
  forall fuel off g acc, P g -> (off <= List.length text)%nat -> (List.length text - off < fuel)%nat ->
  exists rs, snd (exec_loop fuel e p r g text (skipn off text) ref acc) = Ret rs.
Proof.
  intros Hr Hx. induction fuel as [|fuel IH]; intros off g acc Pg Ho Hf; [lia|]. cbn [exec_loop].
  destruct (search true r (skipn off text)) as [m|] eqn:S; [|cbn; eauto].
  destruct (search_bounds _ _ _ Hr S) as [B1 B2]. rewrite skipn_length in B1.
  replace (m_pos m + List.length text - List.length (skipn off text))%nat with (off + m_pos m)%nat by (rewrite skipn_length; lia).
  destruct (Hx off m g (Z.of_nat (off + m_pos m)) Pg S) as (g' & res & X & Pg' & Hd). rewrite X. cbv zeta. rewrite Hd. cbn [bind]. rewrite substr_from_ok by lia. apply IH; [exact Pg'|lia|lia].
Qed.

Lemma day_exists c n : real_date c -> LO <= dn_of c + n <= HI -> exists c', real_date c' /\ dn_of c' = dn_of c + n /\ days_after n c c'.
Proof. intros R B. destruct (dn_real _ B) as (c' & R' & E). exists c'. split; [exact R'|]. split; [congruence|]. split; [apply R'|]. unfold dn_of in E. lia. Qed.
Lemma dn_near c : real_date c -> 1401 <= cy c <= 9998 -> LO + 365 <= dn_of c <= HI - 365.
Proof.
  intros [V _] Y. pose proof (rd_le_year _ V) as [Q1 Q2]. pose proof (dby_le 1401 (cy c) ltac:(lia)) as Q3. pose proof (dby_le (cy c + 1) 9999 ltac:(lia)) as Q4.
  change (days_before_year 1401) with 511339 in Q3. change (days_before_year 9999) with 3651694 in Q4. unfold dn_of, JDN0, LO, HI. lia.
Qed.

(** the written amounts all name a day of the calendar *)
Definition weeks_fit (t : moment) (tx : bytes) : Prop :=
  forall kw s sp n, way kw s -> blanks sp -> sp <> [] -> digits n -> n <> [] -> occurs (kw ++ sp ++ n) tx -> exists c, real_date c /\ days_after (s * (7 * decimal n)) (mdate t) c.

Lemma week_returns e g tx m t us idx texts : real_instant t us -> 1401 <= cy (mdate t) <= 9998 -> low tx -> search true week_re tx = Some m -> table_inv texts g -> weeks_fit t tx ->
  exists g' res, week_extract e g tx m (ptime_of t us) idx = (g', Ret res) /\ hasPossibleDates res = true.
Proof.
  intros H Hy Lw S Ti Fit. unfold week_extract. rewrite (pt_date_of _ _ H). pose proof H as ((R & _) & _). pose proof (dn_near _ R Hy) as Nr.
  assert (Go : forall (g1 : gwords) (k d : Z), LO <= d <= HI -> (if contains (bs "last") (grp m 2) then add_weeks (dn_of (mdate t)) (- k) else if contains (bs "next") (grp m 2) then add_weeks (dn_of (mdate t)) k else dn_of (mdate t)) = d ->
    exists g' res, (g1, (n <- @Ret Z k ;; imply_ymd (if contains (bs "last") (grp m 2) then add_weeks (dn_of (mdate t)) (- n) else if contains (bs "next") (grp m 2) then add_weeks (dn_of (mdate t)) n else dn_of (mdate t)) (res_new (ptime_of t us) idx (grp m 0)))) = (g', Ret res) /\ hasPossibleDates res = true).
  { intros g1 k d B E. cbn [bind]. rewrite E. destruct (dn_real _ B) as (c & Rc & Ec). rewrite Ec. destruct (imply_ymd_spec c (res_new (ptime_of t us) idx (grp m 0)) Rc) as (r' & X & Er). exists g1, r'. split; [rewrite X; reflexivity|].
    subst r'. unfold hasPossibleDates. set (q := getMonth _). assert (Q : q = cm c) by reflexivity. rewrite Q. destruct Rc as [[Vm _] _]. replace (cm c =? 0) with false by lia. rewrite !andb_false_r. reflexivity. }
  assert (Small : forall k, 0 <= k <= 12 -> forall d, (if contains (bs "last") (grp m 2) then add_weeks (dn_of (mdate t)) (- k) else if contains (bs "next") (grp m 2) then add_weeks (dn_of (mdate t)) k else dn_of (mdate t)) = d -> LO <= d <= HI).
  { intros k Hk d <-. unfold add_weeks. destruct (contains (bs "last") _); [lia|]. destruct (contains (bs "next") _); lia. }
  destruct (week_match tx m S Lw) as [(sp & E & B & G2 & G3 & G4)|(kw & s1 & n & s2 & ws & E & K & B1 & N1 & B2 & Ww & G2 & Q)]; unfold week_count.
  - rewrite G3, G4. cbn [is_nil negb]. eapply Go; [eapply (Small 1); [lia|reflexivity]|reflexivity].
  - destruct Q as [(-> & G3 & G4)|[(D & Nn & G3 & G4)|(L & G3 & G4)]]; rewrite G3, G4; cbn [is_nil negb].
    + eapply Go; [eapply (Small 1); [lia|reflexivity]|reflexivity].
    + destruct n as [|c0 n]; [congruence|]. cbn [is_nil negb]. set (w := c0 :: n) in *. destruct (search_split _ _ _ _ S) as (pre & post & Et & _).
      assert (Oc : forall s, kw ++ s1 ++ w = s -> occurs s tx) by (intros s <-; exists pre, (s2 ++ ws ++ post); rewrite Et, E, <- !app_assoc; reflexivity).
      assert (Wy : exists s, way kw s) by (destruct K as [-> | ->]; [exists (-1); left|exists 1; right]; auto). destruct Wy as (s & Wy).
      destruct (Fit kw s s1 w Wy B1 N1 D ltac:(discriminate) (Oc _ eq_refl)) as (c & Rc & (_ & Ec)).
      pose proof (decimal_bounds _ D) as [Bd _]. assert (Bc : LO <= dn_of c <= HI) by (apply (proj1 (in_range_iff c (proj1 Rc))); apply Rc). assert (Br : LO <= dn_of (mdate t) <= HI) by (apply (proj1 (in_range_iff _ (proj1 R))); apply R).
      assert (Ed : dn_of c = dn_of (mdate t) + s * (7 * decimal w)) by (unfold dn_of; lia).
      assert (Hs : s = -1 \/ s = 1) by (destruct Wy as [[_ ->]|[_ ->]]; auto).
      rewrite stoi_digits by (auto; discriminate). replace (INT_MAX <? decimal w) with false by (unfold INT_MAX, LO, HI in *; destruct Hs; subst s; lia).
      eapply (Go g (decimal w) (dn_of c)); [exact Bc|]. rewrite G2, E. unfold add_weeks. destruct Wy as [[-> ->]|[-> ->]].
      * rewrite contains_start. lia.
      * rewrite (contains_without (bs "last") _ "a"%char); [rewrite contains_start; lia|cbn; tauto|].
        intros I. apply in_app_or in I as [I|I]; [cbn in I; intuition discriminate|]. apply in_app_or in I as [I|I]; [revert I; apply (not_in_class is_space); [reflexivity|exact B1]|].
        apply in_app_or in I as [I|I]; [revert I; apply (not_in_class is_digit); [reflexivity|exact D]|]. apply in_app_or in I as [I|I]; [revert I; apply (not_in_class is_space); [reflexivity|exact B2]|].
        destruct Ww as [-> | ->]; cbn in I; intuition discriminate.
    + assert (Nn : n <> []) by (intros ->; apply min_len_ok in L; cbn in L; lia). pose proof (table_value texts g n Ti) as Tv. destruct n as [|c0 n]; [congruence|]. cbn [is_nil negb].
      destruct (gw_index g (c0 :: n)) as [v g2]. cbn [fst] in Tv. assert (Hv : 0 <= v <= 12).
      { destruct (tbl_find (c0 :: n) INTEGER_WORDS) as [v'|] eqn:F; [|lia]. subst v. destruct (words_table_some _ _ F) as (x & _ & I). cbn in I. clear - I.
        decompose [or] I; try contradiction; match goal with E : (_, _) = (_, _) |- _ => injection E as <- <- end; lia. }
      eapply Go; [eapply (Small v); [exact Hv|reflexivity]|reflexivity].
Qed.

(** C84 is false: amounts beyond the calendar, or beyond int, end the program with an exception. *)
Theorem C84_week_returns_refuted :
  x_res (execute strict_env week gwords_init (bs "next 999999 weeks") noon2024) = Throw OutOfRange /\ x_res (execute strict_env week gwords_init (bs "last 99999999999 weeks") noon2024) = Throw OutOfRange /\
  forall e t us, real_instant t us -> mdate t = Cal 1400 1 3 -> x_res (execute e week gwords_init (bs "last week") (ptime_of t us)) = Throw OutOfRange.
Proof.
  split; [vm_compute; reflexivity|]. split; [vm_compute; reflexivity|]. intros e t us H E. unfold execute. cbn [p_pattern week]. change (compile week_pattern) with (compile (p_pattern week)). rewrite week_compile.
  change (to_lower (bs "last week")) with (bs "last week"). change (S (List.length (bs "last week"))) with 10%nat. cbn [exec_loop].
  destruct (search true week_re (bs "last week")) as [mm|] eqn:S; [|vm_compute in S; discriminate]. vm_compute in S. apply RegexFacts.some_inj in S. subst mm.
  cbn [p_extract week]. unfold week_extract. rewrite (pt_date_of _ _ H), E. vm_compute. reflexivity.
Qed.
Print Assumptions C84_week_returns_refuted.
(** Whatever was parsed before: it returns on every text whose written amounts name a day of the calendar, for references of the years 1401 to 9998.
    (Missing: amounts beyond the calendar, the first and the last supported year.) *)
Theorem C84_week_returns_partial : forall e calls text t us, past calls -> real_instant t us -> 1401 <= cy (mdate t) <= 9998 -> weeks_fit t (to_lower text) ->
  exists rs, x_res (execute e week (words_after e calls) text (ptime_of t us)) = Ret rs.
Proof.
  intros e calls text t us Pc H Hy Fit. pose proof (words_table e calls Pc) as Ti. set (texts := text :: rev (texts_of calls)). apply (table_more _ text) in Ti. fold texts in Ti.
  unfold execute. cbn [p_pattern week]. change (compile week_pattern) with (compile (p_pattern week)). rewrite week_compile.
  destruct (exec_loop_total_table e week week_re (ptime_of t us) (to_lower text) (table_inv texts)) with (fuel := S (List.length (to_lower text))) (off := 0%nat) (g := words_after e calls) (acc := @nil result) as [rs E]; try lia.
  - apply Nat.leb_le. vm_compute. reflexivity.
  - intros off m g idx Tg S. destruct (week_returns e g (skipn off (to_lower text)) m t us idx texts H Hy (low_skipn _ _ (low_to_lower _)) S Tg) as (g' & res & X & P).
    { intros kw s sp n A B C D F (a & b & O). apply (Fit kw s sp n A B C D F). exists (firstn off (to_lower text) ++ a), b. rewrite <- app_assoc, <- O, firstn_skipn. reflexivity. }
    exists g', res. split; [exact X|]. split; [|exact P]. apply week_words in X as [-> | [N ->]]; [exact Tg|].
    destruct (week_caps _ _ S) as [E|[L D]]; [congruence|]. apply (table_insert _ text); auto; [left; reflexivity|]. apply (occurs_skipn _ off). apply (grp_occurs _ _ _ _ 4 S).
  - exact Ti.
  - cbn [skipn] in E. destruct (exec_loop _ _ _ _ _ _ _ _ _) as [g' o]. cbn [snd] in E. subst o. exists rs. reflexivity.
Qed.
Print Assumptions C84_week_returns_partial.
Example C84_case : weeks_fit (Moment (Cal 2024 1 2) 12 0 0) (bs "next 5 weeks").
Proof.
  intros kw s sp n W B N D Nn (a & b & E). destruct n as [|c n]; [congruence|]. inversion D as [|? ? Dc Dn]; subst. destruct sp as [|x sp]; [congruence|]. inversion B as [|? ? Bx Bs]; subst.
  assert (Q : exists s', way (bs "next") s' /\ c :: n = bs "5" /\ s' = s).
  { assert (L := f_equal (@List.length ascii) E). rewrite !app_length in L. cbn [List.length bs list_ascii_of_string app] in L.
    destruct W as [[-> ->]|[-> ->]]; cbn [List.length bs list_ascii_of_string app] in L;
      (destruct a as [|a1 [|a2 [|a3 [|a4 [|a5 [|a6 [|a7 a]]]]]]]; cbn [List.length] in L; [| | | | | | |lia]); cbn in E; try discriminate.
    injection E as Ex E. subst x. destruct sp as [|y sp]; cbn [app] in E.
    - injection E as Ec E. subst c. exists 1. split; [right; auto|]. split; [|reflexivity]. destruct n as [|z n]; [reflexivity|]. cbn [app] in E. injection E as <- E. inversion Dn as [|? ? Z _]; discriminate Z.
    - injection E as Ey E. subst y. inversion Bs as [|? ? Y _]; discriminate Y. }
  destruct Q as (s' & W' & -> & <-). destruct W' as [[F _]|[_ ->]]; [discriminate|]. exists (Cal 2024 2 6). split; concrete.
Qed.
