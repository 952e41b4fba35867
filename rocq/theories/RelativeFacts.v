(** * RelativeFacts: matches of the relative-date pattern and what they are turned into *)
From Verif Require Import Base Regex RegexParse Calendar Components Utils Execute Spec View ParserSpec RelativeSpec CalendarCycle CalendarFacts RegexFacts ResultFacts Template
  ExecuteFacts ParserRe MatchFacts FuelFacts LocateFacts HistoryFacts ParserFacts CasualFacts NumberFacts DeadlineFacts ISOFacts HolidayFacts WeekFacts FragmentFacts AgoRuns AgoFacts P_Deadline P_Relative.
From Coq Require Import ZifyBool ZifyNat ZifyN.
Open Scope string_scope.
Open Scope list_scope.
Open Scope Z_scope.

Lemma relative_match t m : search true relative_re t = Some m ->
  exists pre post kw s1 n s2 u, t = pre ++ m_str m ++ post /\ m_pos m = List.length pre /\
    m_str m = kw ++ s1 ++ n ++ s2 ++ u /\ lang true rl_kw kw /\ blanks s1 /\ (n = [] \/ lang true rl_num n) /\
    blanks s2 /\ lang true rl_unit u /\ grp m 2 = kw /\ grp m 3 = n /\ grp m 4 = u.
Proof.
  intros H. shape H. unfold grp. rewrite C. clear C. unfold relative_re in M. mt_crack M; shape_end Es; rewrite <- Es in *; clear Es;
  repeat match goal with L : lang _ SPs _ |- _ => apply SPs_blanks in L end.
  - eexists pre, _, _, _, [], _, _. repeat split; eauto.
  - eexists pre, _, _, _, _, _, _. repeat split; eauto.
Qed.

(** ** amounts *)
Lemma half_first sp a : blanks sp -> article a -> contains (bs "few") (bs "half" ++ sp ++ a) = false /\ contains (bs "half") (bs "half" ++ sp ++ a) = true /\ gw_find gwords_init (bs "half" ++ sp ++ a) = None.
Proof.
  intros B A. split; [|split; [apply contains_start|]].
  - apply (contains_without _ _ "w"%char); [cbn; tauto|]. intros I. apply in_app_or in I as [I|I]; [cbn in I; intuition discriminate|].
    apply in_app_or in I as [I|I]; [revert I; apply (not_in_class is_space); [reflexivity|exact B]|]. destruct A as [-> | ->]; cbn in I; intuition discriminate.
  - destruct (gw_find gwords_init _) eqn:F; [|reflexivity]. exfalso. unfold gwords_init in F. destruct (words_table_some _ _ F) as (x & E & I). cbn in I. clear - E I.
    decompose [or] I; try contradiction; match goal with E : (_, _) = (_, _) |- _ => injection E as <- <- end; discriminate.
Qed.
Lemma stof_digits w : digits w -> w <> [] -> stof w = if fround (decimal w) <? 2 ^ 128 then Ret (FInt (fround (decimal w))) else Throw OutOfRange.
Proof.
  intros D N. unfold stof. pose proof (skip_spaces_digits w [] D N) as S. rewrite app_nil_r in S. rewrite S.
  pose proof (read_digits_gen w D 0 0%nat [] I) as R. rewrite app_nil_r in R. rewrite R. fold (decimal w). destruct w as [|c w]; [congruence|]. reflexivity.
Qed.
Lemma digits_amount w : digits w -> w <> [] -> relative_amount gwords_init w = if fround (decimal w) <? 2 ^ 128 then Some (FInt (fround (decimal w))) else None.
Proof.
  intros D N. unfold relative_amount, gw_find, gwords_init. rewrite digits_not_word by assumption.
  destruct w as [|c w]; [congruence|]. cbn [is_nil]. rewrite (contains_lit_digits "f" (bs "ew")) by (auto; reflexivity).
  rewrite (contains_lit_digits "h" (bs "alf")) by (auto; reflexivity). rewrite stof_digits by assumption. destruct (fround (decimal (c :: w)) <? 2 ^ 128); reflexivity.
Qed.
Lemma relative_amount_spec n : low n -> n = [] \/ lang true rl_num n ->
  (exists q, rel_amount n q /\ (forall k, q = Whole k -> 0 <= k) /\ (relative_amount gwords_init n = Some (num_of q) \/ (digits n /\ relative_amount gwords_init n = None))) \/
  (exists w k, n = bs " " ++ bs w /\ In (w, k) number_words /\ relative_amount gwords_init n = None).
Proof.
  intros Lw [-> | L].
  - left. exists (Whole 1). split; [constructor|]. split; [intros k E; injection E as <-; lia|]. left. vm_compute. reflexivity.
  - word_cases L; rewrite ?app_nil_r in *;
    try (lazymatch goal with |- context [relative_amount _ (" "%char :: ?w)] =>
           let v := eval vm_compute in (tbl_find w INTEGER_WORDS) in
           lazymatch v with Some ?k => right; let s := eval vm_compute in (string_of_list_ascii w) in exists s, k; split; [reflexivity|split; [cbn; tauto|vm_compute; reflexivity]] end end).
    + left. match goal with R : Forall _ ?x, S : set_ok _ _ _ ?c = true |- _ => assert (D : digits (c :: x)) by (constructor; [apply digit_set; assumption|apply Forall_digit; assumption]);
        set (w := c :: x) in *; assert (N : w <> []) by discriminate; clearbody w end.
      exists (Whole (decimal w)). split; [constructor; assumption|]. pose proof (decimal_bounds w D). split; [intros k E; injection E as <-; lia|].
      rewrite digits_amount by assumption. destruct (_ <? _); [left; reflexivity|right; auto].
    + left. exists (Whole 3). split; [constructor|]. split; [intros k E; injection E as <-; lia|]. left. vm_compute. reflexivity.
    + left. exists Half. split; [constructor|]. split; [discriminate|]. left. vm_compute. reflexivity.
    + left. match goal with R : Forall _ ?x |- _ => apply space_run in R; exists Half; split; [exact (ra_half_a x (bs "a") R (or_introl eq_refl))|]; split; [discriminate|]; left;
        destruct (half_first x (bs "a") R (or_introl eq_refl)) as (A & B & C); change (relative_amount gwords_init (bs "half" ++ x ++ bs "a") = Some FHalf); unfold relative_amount; rewrite C, A, B; reflexivity end.
    + left. match goal with R : Forall _ ?x |- _ => apply space_run in R; exists Half; split; [exact (ra_half_a x (bs "an") R (or_intror eq_refl))|]; split; [discriminate|]; left;
        destruct (half_first x (bs "an") R (or_intror eq_refl)) as (A & B & C); change (relative_amount gwords_init (bs "half" ++ x ++ bs "an") = Some FHalf); unfold relative_amount; rewrite C, A, B; reflexivity end.
Qed.

(** ** units *)
Lemma relative_unit u : low u -> lang true rl_unit u -> (exists w k, u = bs w /\ In (w, k) full_units) \/ u = bs "min" \/ u = bs "mins".
Proof.
  intros Lw L. word_cases L;
    try (lazymatch goal with |- (exists w k, ?u = bs w /\ _) \/ _ => let s := eval vm_compute in (string_of_list_ascii u) in left; exists s; eexists; split; [reflexivity|cbn; tauto] end); auto.
Qed.
Lemma relative_key kw : low kw -> lang true rl_kw kw -> kw = bs "this" \/ exists s, heads kw s.
Proof. intros Lw L. word_cases L; auto; right; [exists 1|exists (-1)|exists (-1)]; unfold heads; auto. Qed.

(** ** the computation, by kind of unit *)
Definition rel_rest (num : fnum) (sgn : Z) (u : bytes) (ref : ptime) (tmpDate : date) (res : result) : outcome result :=
      if dwmy u then
        let res := setTag TRelative res in
        if contains (bs "day") u && negb (f_whole num) then
          let t := ref + sgn * (12 * HOUR) in
          d <- pt_date t ;;
          res <- imply_ymd d res ;;
          h <- pt_hours t ;; mi <- pt_minutes t ;;
          Ret (on_start (fun p => implyComponent "min" mi (implyComponent "hour" h p)) res)
        else
          d <- relative_date num sgn u tmpDate ;;
          imply_ymd d res
      else
        t <- relative_time num sgn u ref ;;
        d <- pt_date t ;;
        res <- imply_ymd d res ;;
        h <- pt_hours t ;; mi <- pt_minutes t ;; s <- pt_seconds t ;;
        Ret (setTag TRelative
              (on_start (fun p => implyComponent "sec" s (implyComponent "min" mi (implyComponent "hour" h p))) res)).
Definition clock_rest (t : ptime) (res : result) : outcome result :=
        d <- pt_date t ;;
        res <- imply_ymd d res ;;
        h <- pt_hours t ;; mi <- pt_minutes t ;; s <- pt_seconds t ;;
        Ret (setTag TRelative
              (on_start (fun p => implyComponent "sec" s (implyComponent "min" mi (implyComponent "hour" h p))) res)).
Definition half_day_rest (t : ptime) (res : result) : outcome result :=
          d <- pt_date t ;;
          res <- imply_ymd d res ;;
          h <- pt_hours t ;; mi <- pt_minutes t ;;
          Ret (on_start (fun p => implyComponent "min" mi (implyComponent "hour" h p)) res).
Definition rel_kind (num : fnum) (sgn : Z) (u : unit_kind) (ref : ptime) (d : date) (res : result) : outcome result :=
  match u, num with
  | UDay, FInt z => d' <- (n <- f2int num ;; Ret (d + sgn * n)) ;; imply_ymd d' (setTag TRelative res)
  | UDay, FHalf => half_day_rest (ref + sgn * (12 * HOUR)) (setTag TRelative res)
  | UWeek, FInt z => d' <- (n <- f2int num ;; Ret (d + 7 * (sgn * n))) ;; imply_ymd d' (setTag TRelative res)
  | UWeek, FHalf => imply_ymd (d + sgn * 3) (setTag TRelative res)
  | UMonth, FInt z => d' <- (n <- f2int num ;; add_months d (sgn * n)) ;; imply_ymd d' (setTag TRelative res)
  | UMonth, FHalf => imply_ymd (d + sgn * 15) (setTag TRelative res)
  | UYear, FInt z => d' <- (n <- f2int num ;; add_years d (sgn * n)) ;; imply_ymd d' (setTag TRelative res)
  | UYear, FHalf => d' <- add_months d (sgn * 6) ;; imply_ymd d' (setTag TRelative res)
  | UHour, FInt z => t <- (n <- f2int num ;; Ret (ref + sgn * (n * HOUR))) ;; clock_rest t res
  | UHour, FHalf => clock_rest (ref + sgn * (30 * MINUTE)) res
  | UMinute, FInt z => t <- (n <- f2int num ;; Ret (ref + sgn * (n * MINUTE))) ;; clock_rest t res
  | UMinute, FHalf => clock_rest (ref + sgn * (30 * SEC)) res
  | USecond, _ => t <- (n <- f2int num ;; Ret (ref + sgn * (n * SEC))) ;; clock_rest t res
  end.
Lemma rel_rest_kind w u : In (w, u) full_units -> forall num sgn ref d res, rel_rest num sgn (bs w) ref d res = rel_kind num sgn u ref d res.
Proof.
  intros I. cbn in I. repeat (destruct I as [I|I]; [injection I as <- <-; intros num sgn ref d res;
    unfold rel_rest, dwmy, relative_date, relative_time; finds; destruct num as [z|]; cbn [f_whole negb]; reflexivity|]). contradiction.
Qed.
Lemma rel_rest_min u : u = bs "min" \/ u = bs "mins" -> forall num sgn ref d res, rel_rest num sgn u ref d res = clock_rest ref res.
Proof. intros [-> | ->] num sgn ref d res; reflexivity. Qed.

(** ** where a shift by seconds lands *)
Ltac Zify.zify_post_hook ::= Z.div_mod_to_equations.
Lemma landing t us n d : real_instant t us -> pt_date (ptime_of t us + n * SEC) = Ret d ->
  exists t', real_instant t' us /\ seconds_after n t t' /\ ptime_of t us + n * SEC = ptime_of t' us /\ d = dn_of (mdate t').
Proof.
  intros H Pd. apply pt_date_inv in Pd as (c & Rc & -> & Pd).
  pose (tod := (3600 * mhour t + 60 * mmin t + msec t + n) mod 86400).
  set (t' := Moment c (tod / 3600) (tod / 60 mod 60) (tod mod 60)).
  assert (Sa : seconds_after n t t').
  { destruct H as [(_ & B1 & B2 & B3) Hu]. pose proof (proj1 Rc) as Vc.
    assert (Ed : dn_of c = dn_of (mdate t) + (3600 * mhour t + 60 * mmin t + msec t + n) / 86400).
    { rewrite Pd. unfold ptime_of, DAY, SEC in *. generalize (dn_of (mdate t)). clear - B1 B2 B3 Hu. intros z.
      set (a := 3600 * mhour t + 60 * mmin t + msec t + n).
      symmetry. apply (Z.div_unique _ _ _ (a mod 86400 * 1000000 + us)); subst a; lia. }
    split; [exact Vc|]. unfold t', sec_count. cbn [mdate mhour mmin msec]. unfold dn_of in Ed. subst tod. clear - B1 B2 B3 Ed. repeat split; lia. }
  destruct (instant_shift t us n t' H Sa Rc) as [E Hi]. exists t'. auto.
Qed.
Definition stamped (t' : moment) (p : pc) : pc := implyComponent "sec" (msec t') (implyComponent "min" (mmin t') (implyComponent "hour" (mhour t')
  (implyComponent "mday" (cd (mdate t')) (implyComponent "month" (cm (mdate t')) (implyComponent "year" (cy (mdate t')) p))))).
Definition on_day (c : cal) (p : pc) : pc := implyComponent "mday" (cd c) (implyComponent "month" (cm c) (implyComponent "year" (cy c) p)).
Lemma clock_rest_at t' us res : real_instant t' us -> clock_rest (ptime_of t' us) res = Ret (setTag TRelative (on_start (stamped t') res)).
Proof.
  intros H. unfold clock_rest. rewrite (pt_date_of _ _ H). cbn [bind]. destruct (imply_ymd_spec (mdate t') res (proj1 (proj1 H))) as (r & E & ->). rewrite E. cbn [bind].
  rewrite pt_hours_of, pt_minutes_of, pt_seconds_of by exact H. reflexivity.
Qed.
Lemma half_day_at t' us res : real_instant t' us -> half_day_rest (ptime_of t' us) res =
  Ret (on_start (fun p => implyComponent "min" (mmin t') (implyComponent "hour" (mhour t') (on_day (mdate t') p))) res).
Proof.
  intros H. unfold half_day_rest. rewrite (pt_date_of _ _ H). cbn [bind]. destruct (imply_ymd_spec (mdate t') res (proj1 (proj1 H))) as (r & E & ->). rewrite E. cbn [bind].
  rewrite pt_hours_of, pt_minutes_of by exact H. reflexivity.
Qed.
Lemma clock_rest_inv t us n res r : real_instant t us -> clock_rest (ptime_of t us + n * SEC) res = Ret r ->
  exists t', real_instant t' us /\ seconds_after n t t' /\ r = setTag TRelative (on_start (stamped t') res).
Proof.
  intros H X. pose proof X as X'. unfold clock_rest in X. apply bind_ret in X as (d & Pd & _). destruct (landing t us n d H Pd) as (t' & Hi & Sa & E & _).
  rewrite E, (clock_rest_at t' us res Hi) in X'. injection X' as <-. eauto.
Qed.
Lemma half_day_inv t us n res r : real_instant t us -> half_day_rest (ptime_of t us + n * SEC) res = Ret r ->
  exists t', real_instant t' us /\ seconds_after n t t' /\ r = on_start (fun p => implyComponent "min" (mmin t') (implyComponent "hour" (mhour t') (on_day (mdate t') p))) res.
Proof.
  intros H X. pose proof X as X'. unfold half_day_rest in X. apply bind_ret in X as (d & Pd & _). destruct (landing t us n d H Pd) as (t' & Hi & Sa & E & _).
  rewrite E, (half_day_at t' us res Hi) in X'. injection X' as <-. eauto.
Qed.

Lemma f2int_inv z n : f2int (FInt z) = Ret n -> n = z.
Proof. cbn. destruct (_ || _); [discriminate|]. congruence. Qed.
Lemma f2int_ok z : 0 <= z <= INT_MAX -> f2int (FInt z) = Ret z.
Proof. intros H. unfold f2int. destruct (_ || _) eqn:E; [unfold INT_MIN in E; lia|reflexivity]. Qed.
(** a result built on [res_new]: where and of what, no end date, a proper month *)
Definition built (ref : ptime) (idx : Z) (tx : bytes) (r : result) : Prop :=
  r_text r = tx /\ r_index r = u32 idx /\ has_end r = false /\ untouched [WDay; TzOffset] (r_start r) /\ hasPossibleDates r = true.
Lemma possible_start r m : getMonth (r_start r) = m -> 1 <= m -> hasPossibleDates r = true.
Proof. intros E H. unfold hasPossibleDates. rewrite E. destruct (getYear _ =? 0); cbn [andb negb]; [|reflexivity]. replace (m =? 0) with false by lia. reflexivity. Qed.
Lemma built_day ref idx tx c : real_date c -> built ref idx tx (on_start (on_day c) (setTag TRelative (res_new ref idx tx))).
Proof. intros R. split; [reflexivity|]. split; [reflexivity|]. split; [reflexivity|]. split; [comps|]. apply (possible_start _ (cm c)); [reflexivity|apply R]. Qed.
Lemma day_of_day ref idx tx c : real_date c -> day_result (r_start (on_start (on_day c) (setTag TRelative (res_new ref idx tx)))) c.
Proof. intros R. split; [exact R|]. comps. Qed.

Lemma ret_inj {A} (a b : A) : Ret a = Ret b -> a = b.
Proof. congruence. Qed.
Lemma rel_kind_inv s q u t us idx tx r : s = 1 \/ s = -1 -> (forall k, q = Whole k -> 0 <= k) -> real_instant t us ->
  rel_kind (num_of q) s u (ptime_of t us) (dn_of (mdate t)) (res_new (ptime_of t us) idx tx) = Ret r ->
  relative_means t s q u (r_start r) /\ built (ptime_of t us) idx tx r.
Proof.
  intros Hs Hq H X. set (ref := ptime_of t us) in *. pose proof (proj1 (proj1 H)) as Rt.
  assert (Day : forall n, imply_ymd (dn_of (mdate t) + n) (setTag TRelative (res_new ref idx tx)) = Ret r ->
    exists c, days_after n (mdate t) c /\ day_result (r_start r) c /\ built ref idx tx r /\ Z.abs n < 2 ^ 24).
  { intros n Y. apply imply_ymd_inv in Y as (c & R & E & ->). exists c. split; [apply day_shift; assumption|]. split; [apply day_of_day; exact R|]. split; [apply built_day; exact R|].
    apply real_range in R, Rt. unfold LO, HI in *. lia. }
  assert (Mon : forall n, (d' <- add_months (dn_of (mdate t)) n ;; imply_ymd d' (setTag TRelative (res_new ref idx tx))) = Ret r ->
    exists c, months_after n (mdate t) c /\ day_result (r_start r) c /\ built ref idx tx r /\ Z.abs n <= 32767).
  { intros n Y. apply bind_ret in Y as (d & A & Y). apply add_months_inv in A as (B & c & R & -> & M); [|exact Rt].
    apply imply_ymd_inv in Y as (c' & R' & E & ->). assert (c' = c). { pose proof (ymd_real c R) as Q. rewrite E, ymd_real in Q by exact R'. injection Q as Q1 Q2 Q3. destruct c, c'; cbn in *; congruence. } subst c'.
    exists c. split; [exact M|]. split; [apply day_of_day; exact R|]. split; [apply built_day; exact R|]. lia. }
  assert (Clk : forall n, clock_rest (ref + n * SEC) (res_new ref idx tx) = Ret r ->
    exists t', real_moment t' /\ seconds_after n t t' /\ date_implied (r_start r) (mdate t') /\ clock_implied (r_start r) t' /\ built ref idx tx r).
  { intros n Y. apply (clock_rest_inv t us n _ _ H) in Y as (t' & Hi & Sa & ->). exists t'. split; [apply Hi|]. split; [exact Sa|]. split; [comps|]. split; [unfold clock_implied; comps|].
    split; [reflexivity|]. split; [reflexivity|]. split; [reflexivity|]. split; [comps|]. apply (possible_start _ (cm (mdate t'))); [reflexivity|apply Hi]. }
  assert (Sml : forall k m, 0 <= k -> (m = 1 \/ m = 7 \/ m = 12) -> Z.abs (s * (m * fround k)) < 2 ^ 24 -> fround k = k).
  { intros k m Hk Hm L. apply fround_exact; [exact Hk|]. pose proof (fround_nonneg k Hk). destruct Hs as [-> | ->]; lia. }
  destruct q as [k|]; cbn [num_of] in X; [specialize (Hq k eq_refl)|clear Hq]; destruct u; cbn [rel_kind] in X; cbn [relative_means date_away].
  - apply bind_ret in X as (d' & F & X). apply bind_ret in F as (n & F & G). apply f2int_inv in F. apply ret_inj in G. rewrite <- G in X. clear G. subst n.
    destruct (Day _ X) as (c & A & B & C & D). replace (s * fround k) with (s * (1 * fround k)) in D by lia. rewrite (Sml k 1) in A by (first [lia | tauto]). eauto.
  - apply bind_ret in X as (d' & F & X). apply bind_ret in F as (n & F & G). apply f2int_inv in F. apply ret_inj in G. rewrite <- G in X. clear G. subst n.
    replace (7 * (s * fround k)) with (s * (7 * fround k)) in X by lia. destruct (Day _ X) as (c & A & B & C & D). rewrite (Sml k 7) in A by (first [lia | tauto]). eauto.
  - apply bind_ret in X as (d' & F & X). apply bind_ret in F as (n & F & G). apply f2int_inv in F. subst n.
    destruct (Mon (s * fround k)) as (c & A & B & C & D); [rewrite G; exact X|]. replace (s * fround k) with (s * (1 * fround k)) in D by lia. rewrite (Sml k 1) in A by (first [lia | tauto]). eauto.
  - apply bind_ret in X as (d' & F & X). apply bind_ret in F as (n & F & G). apply f2int_inv in F. subst n. unfold add_years in G.
    destruct (Mon (12 * (s * fround k))) as (c & A & B & C & D); [rewrite G; exact X|]. replace (12 * (s * fround k)) with (s * (12 * fround k)) in A, D by lia. rewrite (Sml k 12) in A by (first [lia | tauto]). eauto.
  - apply bind_ret in X as (x & F & X). apply bind_ret in F as (n & F & G). apply f2int_inv in F. apply ret_inj in G. rewrite <- G in X. clear G. subst n.
    destruct (Clk (s * (3600 * fround k))) as (t' & A & B & C & D & E); [rewrite <- X; f_equal; unfold HOUR, SEC; lia|].
    split; [|exact E]. exists (s * (3600 * fround k)), t'. split; [|auto]. intros n E0 Hk. cbn in E0. injection E0 as <-. rewrite fround_small by lia. reflexivity.
  - apply bind_ret in X as (x & F & X). apply bind_ret in F as (n & F & G). apply f2int_inv in F. apply ret_inj in G. rewrite <- G in X. clear G. subst n.
    destruct (Clk (s * (60 * fround k))) as (t' & A & B & C & D & E); [rewrite <- X; f_equal; unfold MINUTE, SEC; lia|].
    split; [|exact E]. exists (s * (60 * fround k)), t'. split; [|auto]. intros n E0 Hk. cbn in E0. injection E0 as <-. rewrite fround_small by lia. reflexivity.
  - apply bind_ret in X as (x & F & X). apply bind_ret in F as (n & F & G). apply f2int_inv in F. apply ret_inj in G. rewrite <- G in X. clear G. subst n.
    destruct (Clk (s * fround k)) as (t' & A & B & C & D & E); [rewrite <- X; f_equal; unfold SEC; lia|].
    split; [|exact E]. exists (s * fround k), t'. split; [|auto]. intros n E0 Hk. cbn in E0. injection E0 as <-. rewrite fround_small by lia. reflexivity.
  - replace (ref + s * (12 * HOUR)) with (ref + (s * 43200) * SEC) in X by (unfold HOUR, SEC; lia). apply (half_day_inv t us _ _ _ H) in X as (t' & Hi & Sa & ->).
    split; [exists t'; split; [apply Hi|]; split; [exact Sa|]; repeat split; comps|].
    split; [reflexivity|]. split; [reflexivity|]. split; [reflexivity|]. split; [comps|]. apply (possible_start _ (cm (mdate t'))); [reflexivity|apply Hi].
  - destruct (Day _ X) as (c & A & B & C & D). eauto.
  - destruct (Day _ X) as (c & A & B & C & D). eauto.
  - destruct (Mon _ X) as (c & A & B & C & D). eauto.
  - destruct (Clk (s * 1800)) as (t' & A & B & C & D & E); [rewrite <- X; f_equal; unfold MINUTE, SEC; lia|]. split; [|exact E]. exists (s * 1800), t'. split; [|auto]. intros n E0 _. cbn in E0. congruence.
  - destruct (Clk (s * 30)) as (t' & A & B & C & D & E); [rewrite <- X; f_equal; unfold MINUTE, SEC; lia|]. split; [|exact E]. exists (s * 30), t'. split; [|auto]. intros n E0 _. cbn in E0. congruence.
  - cbn [f2int bind] in X. destruct (Clk (s * 0)) as (t' & A & B & C & D & E); [rewrite <- X; f_equal; unfold SEC; lia|]. split; [|exact E]. exists (s * 0), t'. split; [|auto]. intros n E0 _. cbn in E0. congruence.
Qed.

Lemma imply_on c r : real_date c -> imply_ymd (dn_of c) r = Ret (on_start (on_day c) r).
Proof. intros R. destruct (imply_ymd_spec c r R) as (r' & E & ->). exact E. Qed.
(** month shifts of more than 32767 months are not modelled *)
Definition months_modelled (q : quantity) (u : unit_kind) : Prop :=
  match u, q with UMonth, Whole k => k <= 32767 | UYear, Whole k => 12 * k <= 32767 | _, _ => True end.
Lemma rel_kind_date s q u t us idx tx c : s = 1 \/ s = -1 -> (forall k, q = Whole k -> 0 <= k) -> real_instant t us -> date_away s q u (mdate t) c -> real_date c -> months_modelled q u ->
  rel_kind (num_of q) s u (ptime_of t us) (dn_of (mdate t)) (res_new (ptime_of t us) idx tx) = Ret (on_start (on_day c) (setTag TRelative (res_new (ptime_of t us) idx tx))).
Proof.
  intros Hs Hq H D R M. pose proof (proj1 (proj1 H)) as Rt. set (r := res_new (ptime_of t us) idx tx).
  assert (Day : forall n, days_after n (mdate t) c -> imply_ymd (dn_of (mdate t) + n) (setTag TRelative r) = Ret (on_start (on_day c) (setTag TRelative r)) /\ Z.abs n < 2 ^ 24).
  { intros n [_ E]. replace (dn_of (mdate t) + n) with (dn_of c) by (unfold dn_of; lia). split; [apply imply_on; exact R|]. pose proof (real_range _ R). pose proof (real_range _ Rt). unfold dn_of, LO, HI in *. lia. }
  assert (Mon : forall n, months_after n (mdate t) c -> -32767 <= n <= 32767 -> (d' <- add_months (dn_of (mdate t)) n ;; imply_ymd d' (setTag TRelative r)) = Ret (on_start (on_day c) (setTag TRelative r))).
  { intros n A B. pose proof (months_after_fun _ _ _ A) as Ec. rewrite Ec in R |- *. rewrite add_months_real by (auto; apply R). cbn [bind]. apply imply_on. exact R. }
  destruct q as [k|]; cbn [num_of]; [specialize (Hq k eq_refl)|clear Hq]; destruct u; cbn [rel_kind date_away months_modelled] in *; try contradiction.
  - destruct (Day _ D) as [E B]. assert (k < 2 ^ 24) by (destruct Hs; subst s; lia). rewrite fround_small, f2int_ok by (unfold INT_MAX; lia). cbn [bind]. exact E.
  - destruct (Day _ D) as [E B]. assert (k < 2 ^ 24) by (destruct Hs; subst s; lia). rewrite fround_small, f2int_ok by (unfold INT_MAX; lia). cbn [bind].
    replace (7 * (s * k)) with (s * (7 * k)) by lia. exact E.
  - rewrite fround_small, f2int_ok by (unfold INT_MAX; lia). cbn [bind]. apply Mon; [exact D|]. destruct Hs; subst s; lia.
  - rewrite fround_small, f2int_ok by (unfold INT_MAX; lia). cbn [bind]. unfold add_years. replace (12 * (s * k)) with (s * (12 * k)) by lia. apply Mon; [exact D|]. destruct Hs; subst s; lia.
  - apply (Day _ D).
  - apply (Day _ D).
  - apply Mon; [exact D|]. destruct Hs; subst s; lia.
Qed.
Lemma rel_kind_clock s q u t us idx tx n t' : s = 1 \/ s = -1 -> (forall k, q = Whole k -> 0 <= k <= 2 ^ 24) -> real_instant t us -> seconds_in q u = Some n ->
  seconds_after (s * n) t t' -> real_date (mdate t') ->
  rel_kind (num_of q) s u (ptime_of t us) (dn_of (mdate t)) (res_new (ptime_of t us) idx tx) = Ret (setTag TRelative (on_start (stamped t') (res_new (ptime_of t us) idx tx))).
Proof.
  intros Hs Hq H D Sa R. set (r := res_new (ptime_of t us) idx tx). destruct (instant_shift t us _ t' H Sa R) as [E Hi]. rewrite <- (clock_rest_at t' us r Hi), <- E. clear E.
  destruct q as [k|]; cbn [num_of]; [specialize (Hq k eq_refl)|clear Hq]; destruct u; cbn [rel_kind seconds_in] in *; try discriminate; apply some_inj in D; subst n.
  - rewrite fround_small, f2int_ok by (unfold INT_MAX; lia). cbn [bind]. f_equal. unfold HOUR, SEC. lia.
  - rewrite fround_small, f2int_ok by (unfold INT_MAX; lia). cbn [bind]. f_equal. unfold MINUTE, SEC. lia.
  - rewrite fround_small, f2int_ok by (unfold INT_MAX; lia). cbn [bind]. f_equal. lia.
  - f_equal. unfold MINUTE, SEC. lia.
  - f_equal. unfold SEC. lia.
  - cbn [f2int bind]. f_equal. unfold SEC. lia.
Qed.
Lemma rel_kind_half_day s t us idx tx t' : s = 1 \/ s = -1 -> real_instant t us -> seconds_after (s * 43200) t t' -> real_date (mdate t') ->
  rel_kind FHalf s UDay (ptime_of t us) (dn_of (mdate t)) (res_new (ptime_of t us) idx tx) =
  Ret (on_start (fun p => implyComponent "min" (mmin t') (implyComponent "hour" (mhour t') (on_day (mdate t') p))) (setTag TRelative (res_new (ptime_of t us) idx tx))).
Proof.
  intros Hs H Sa R. destruct (instant_shift t us _ t' H Sa R) as [E Hi]. cbn [rel_kind]. replace (ptime_of t us + s * (12 * HOUR)) with (ptime_of t' us) by (rewrite <- E; unfold HOUR, SEC; lia). apply half_day_at. exact Hi.
Qed.

(** ** "this week", "this month", "this year" *)
Definition week_range (a b : cal) (r : result) : result :=
  makeEndDateValid (on_end (fun p => implyComponent "year" (cy b) (implyComponent "month" (cm b) (implyComponent "mday" (cd b) p)))
    (on_start (fun p => implyComponent "year" (cy a) (implyComponent "month" (cm a) (implyComponent "mday" (cd a) p))) (setTag TRelative r))).
Definition month_range (y m : Z) (r : result) : result :=
  makeEndDateValid (on_end (fun p => setYear y (setMonth m (implyComponent "mday" (month_len y m) p)))
    (on_start (fun p => setYear y (setMonth m (implyComponent "mday" 1 p))) (setTag TRelative r))).
Definition year_range (y : Z) (r : result) : result :=
  makeEndDateValid (on_end (fun p => setYear y (implyComponent "month" 12 (implyComponent "mday" 31 p)))
    (on_start (fun p => setYear y (implyComponent "month" 1 (implyComponent "mday" 1 p))) (setTag TRelative r))).
Lemma weekday_range c : 0 <= weekday c <= 6.
Proof. unfold weekday. lia. Qed.
Lemma week_ends c a b : week_of c a b -> dn_of a = dn_of c - weekday c /\ dn_of b = dn_of c + u16 (6 - weekday c).
Proof.
  intros (Wa & Wb & n & Hn & [_ Da] & [_ Db]). assert (E : n = weekday c). { unfold weekday in *. lia. }
  subst n. unfold u16, dn_of. rewrite Z.mod_small by (pose proof (weekday_range c); lia). lia.
Qed.
Lemma ends_week c a b : real_date a -> real_date b -> dn_of a = dn_of c - weekday c -> dn_of b = dn_of c + u16 (6 - weekday c) -> valid c -> week_of c a b.
Proof.
  intros Ra Rb Ea Eb Vc. pose proof (weekday_range c) as W. unfold u16 in Eb. rewrite Z.mod_small in Eb by lia. unfold dn_of in *.
  split; [unfold weekday in *; lia|]. split; [unfold weekday in *; lia|]. exists (weekday c). split; [exact W|]. split; (split; [first [exact Vc|apply Rb]|lia]).
Qed.
Lemma this_week w : In (w, UWeek) full_units -> forall t us a b r, real_instant t us -> week_of (mdate t) a b -> real_date a -> real_date b ->
  relative_this (ptime_of t us) (bs w) r = Ret (week_range a b r).
Proof.
  intros I t us a b r H W Ra Rb. assert (E : relative_this (ptime_of t us) (bs w) r = relative_this (ptime_of t us) (bs "week") r).
  { cbn in I. decompose [or] I; try discriminate; try contradiction; match goal with E : (_, _) = (_, _) |- _ => injection E as <- end; reflexivity. }
  rewrite E. unfold relative_this, dwmy. finds. rewrite (pt_date_of _ _ H). cbn [bind]. rewrite d_dow_real by apply H. cbn [bind].
  destruct (week_ends _ _ _ W) as [<- <-]. rewrite !d_day_real, !d_month_real, !d_year_real by assumption. reflexivity.
Qed.
Lemma this_week_inv w : In (w, UWeek) full_units -> forall t us r r', real_instant t us -> relative_this (ptime_of t us) (bs w) r = Ret r' ->
  exists a b, real_date a /\ real_date b /\ week_of (mdate t) a b /\ r' = week_range a b r.
Proof.
  intros I t us r r' H X. assert (E : relative_this (ptime_of t us) (bs w) r = relative_this (ptime_of t us) (bs "week") r).
  { cbn in I. decompose [or] I; try discriminate; try contradiction; match goal with E : (_, _) = (_, _) |- _ => injection E as <- end; reflexivity. }
  pose proof X as X'. rewrite E in X. unfold relative_this, dwmy in X. revert X. finds. intros X. rewrite (pt_date_of _ _ H) in X. cbn [bind] in X. rewrite d_dow_real in X by apply H. cbn [bind] in X.
  apply bind_ret in X as (fd & _ & X). apply bind_ret in X as (fm & _ & X). apply bind_ret in X as (fy & Y1 & X).
  apply bind_ret in X as (ld & _ & X). apply bind_ret in X as (lm & _ & X). apply bind_ret in X as (ly & Y2 & _).
  apply d_year_inv in Y1 as (a & Ra & Ea & _). apply d_year_inv in Y2 as (b & Rb & Eb & _).
  assert (W : week_of (mdate t) a b) by (apply ends_week; auto; apply H). exists a, b. do 3 (split; [assumption|]). rewrite (this_week w I t us a b r H W Ra Rb) in X'. congruence.
Qed.
Lemma this_month w : In (w, UMonth) full_units -> forall t us r, real_instant t us -> relative_this (ptime_of t us) (bs w) r = Ret (month_range (cy (mdate t)) (cm (mdate t)) r).
Proof.
  intros I t us r H. assert (E : relative_this (ptime_of t us) (bs w) r = relative_this (ptime_of t us) (bs "month") r).
  { cbn in I. decompose [or] I; try discriminate; try contradiction; match goal with E : (_, _) = (_, _) |- _ => injection E as <- end; reflexivity. }
  rewrite E. unfold relative_this, dwmy. finds. rewrite (pt_date_of _ _ H). cbn [bind]. rewrite d_month_real, d_year_real by apply H. cbn [bind]. rewrite eom_spec by apply H. reflexivity.
Qed.
Lemma this_year w : In (w, UYear) full_units -> forall t us r, real_instant t us -> relative_this (ptime_of t us) (bs w) r = Ret (year_range (cy (mdate t)) r).
Proof.
  intros I t us r H. assert (E : relative_this (ptime_of t us) (bs w) r = relative_this (ptime_of t us) (bs "year") r).
  { cbn in I. decompose [or] I; try discriminate; try contradiction; match goal with E : (_, _) = (_, _) |- _ => injection E as <- end; reflexivity. }
  rewrite E. unfold relative_this, dwmy. finds. rewrite (pt_date_of _ _ H). cbn [bind]. rewrite d_year_real by apply H. reflexivity.
Qed.
Lemma this_other u : (exists w k, u = bs w /\ In (w, k) full_units /\ k <> UWeek /\ k <> UMonth /\ k <> UYear) \/ u = bs "min" \/ u = bs "mins" -> 
  forall ref r, relative_this ref u r = Ret (setTag TRelative r).
Proof.
  intros [(w & k & -> & I & N1 & N2 & N3)|[-> | ->]] ref r; try reflexivity.
  cbn in I. decompose [or] I; try contradiction; match goal with E : (_, _) = (_, _) |- _ => injection E as <- <- end; try congruence; reflexivity.
Qed.
Lemma bare_impossible ref idx tx : hasPossibleDates (res_new ref idx tx) = false /\ hasPossibleDates (setTag TRelative (res_new ref idx tx)) = false.
Proof. split; reflexivity. Qed.
