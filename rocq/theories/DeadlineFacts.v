(** * DeadlineFacts: "in/within N units", for every match *)
From Verif Require Import Base Regex RegexParse Calendar Components Utils Execute Spec View CalendarFacts RegexFacts ResultFacts Template
  ExecuteFacts ParserRe MatchFacts HistoryFacts ParserFacts CasualFacts NumberFacts ParserSpec P_Deadline.
From Coq Require Import ZifyBool ZifyNat ZifyN.
Open Scope string_scope.
Open Scope list_scope.
Open Scope Z_scope.

(** ** amounts *)
Definition amount_ok (n : bytes) (q : quantity) (o : option fnum) : Prop :=
  match q with
  | Whole k => 0 <= k /\ (o = Some (FInt (fround k)) \/ (o = None /\ digits n /\ INT_MAX < k))
  | Half => o = Some FHalf
  end.

Lemma beq_refl w : beq w w = true.
Proof. apply beq_eq. reflexivity. Qed.
Lemma digits_not_word w : digits w -> w <> [] -> tbl_find w INTEGER_WORDS = None.
Proof.
  intros D N. destruct w as [|c w]; [congruence|]. inversion D as [|? ? Hc _]; subst. unfold INTEGER_WORDS. cbn [map fst snd tbl_find bs list_ascii_of_string beq].
  repeat match goal with |- context [Ascii.eqb c ?x] => replace (Ascii.eqb c x) with false by (destruct (Ascii.eqb_spec c x) as [->|]; [vm_compute in Hc; discriminate|reflexivity]) end.
  reflexivity.
Qed.
Lemma contains_lit_digits x needle w : digits w -> is_digit x = false -> contains (x :: needle) w = false.
Proof.
  intros D Hx. induction D as [|c w Hc D IH]; cbn; [reflexivity|]. rewrite IH.
  replace (Ascii.eqb x c) with false; [reflexivity|]. destruct (Ascii.eqb_spec x c) as [->|]; [congruence|reflexivity].
Qed.
Lemma contains_app_r needle a b : contains needle b = true -> contains needle (a ++ b) = true.
Proof.
  intros H. induction a as [|c a IH]; [exact H|]. cbn [app contains]. rewrite IH. apply orb_true_r.
Qed.
Lemma starts_with_app needle b : starts_with needle (needle ++ b) = true.
Proof. induction needle; cbn; [reflexivity|]. rewrite Ascii.eqb_refl. exact IHneedle. Qed.
Lemma contains_start needle b : contains needle (needle ++ b) = true.
Proof. destruct (needle ++ b) eqn:E; cbn; [destruct needle; [reflexivity|discriminate]|]. rewrite <- E, starts_with_app. reflexivity. Qed.
Lemma digits_not_article w : digits w -> beq w (bs "a") || beq w (bs "an") = false.
Proof.
  intros D. destruct w as [|c w]; [reflexivity|]. inversion D as [|? ? Hc _]; subst. cbn.
  replace (Ascii.eqb c "a") with false; [reflexivity|]. destruct (Ascii.eqb_spec c "a") as [->|]; [discriminate|reflexivity].
Qed.

Lemma space_not c x : is_space c = true -> is_space x = false -> Ascii.eqb c x = false /\ Ascii.eqb x c = false.
Proof. intros A B. split; destruct (Ascii.eqb_spec c x), (Ascii.eqb_spec x c); congruence. Qed.
Lemma contains_blanks x needle sp rest : blanks sp -> is_space x = false -> contains (x :: needle) (sp ++ rest) = contains (x :: needle) rest.
Proof.
  intros B Hx. induction B as [|c sp Hc B IH]; [reflexivity|]. cbn [app contains starts_with]. rewrite IH.
  destruct (space_not _ _ Hc Hx) as [_ ->]. reflexivity.
Qed.
Lemma few_found a sp : contains (bs "few") (a ++ sp ++ bs "few") = true.
Proof. apply contains_app_r, contains_app_r. reflexivity. Qed.
Lemma article_few a sp : article a -> blanks sp -> sp <> [] -> deadline_amount gwords_init (a ++ sp ++ bs "few") = Some (FInt 3).
Proof.
  intros A B N. unfold deadline_amount, gw_find. rewrite few_found. destruct sp as [|c sp]; [congruence|]. inversion B as [|? ? Hc _]; subst.
  destruct (space_not c "n" Hc eq_refl) as [E _]. destruct A as [-> | ->]; cbn; rewrite ?E; reflexivity.
Qed.
Lemma half_article a sp : article a -> blanks sp -> sp <> [] -> deadline_amount gwords_init (bs "half" ++ sp ++ a) = Some FHalf.
Proof.
  intros A B N. unfold deadline_amount, gw_find. rewrite (contains_start (bs "half")).
  replace (contains (bs "few") (bs "half" ++ sp ++ a)) with false; [cbn; reflexivity|].
  symmetry. change (bs "half" ++ sp ++ a) with ("h" :: "a" :: "l" :: "f" :: (sp ++ a))%char. destruct sp as [|c sp]; [congruence|]. inversion B as [|? ? Hc Bs]; subst.
  change (bs "few") with ("f" :: "e" :: "w" :: [])%char. cbn [contains starts_with app].
  change ("f" =? "h")%char with false. change ("f" =? "a")%char with false. change ("f" =? "l")%char with false. change ("f" =? "f")%char with true. cbn [andb orb].
  destruct (space_not c "e" Hc eq_refl) as [_ ->]. cbn [andb orb]. destruct (space_not c "f" Hc eq_refl) as [_ ->]. cbn [andb orb].
  rewrite (contains_blanks "f") by (auto; reflexivity). destruct A as [-> | ->]; reflexivity.
Qed.

Lemma deadline_amount_spec n : low n -> lang true dl_num n -> exists q, spells n q /\ amount_ok n q (deadline_amount gwords_init n).
Proof.
  intros Lw L. word_cases L; rewrite ?app_nil_r in *;
    try (lazymatch goal with |- context [deadline_amount _ ?w] =>
           let v := eval vm_compute in (tbl_find w INTEGER_WORDS) in
           lazymatch v with Some ?k => exists (Whole k); split;
             [let s := eval vm_compute in (string_of_list_ascii w) in apply (sp_word s k); vm_compute; tauto
             |split; [lia|left; vm_compute; reflexivity]] end end).
  1: {
    match goal with R : Forall _ ?x, S : set_ok _ _ _ ?c = true |- _ => assert (D : digits (c :: x)) by (constructor; [apply digit_set; assumption|apply Forall_digit; assumption]);
      set (w := c :: x) in *; assert (N : w <> []) by discriminate; clearbody w end.
    exists (Whole (decimal w)). split; [apply sp_digits; assumption|]. pose proof (decimal_bounds w D). split; [lia|].
    unfold deadline_amount, gw_find, gwords_init. rewrite digits_not_word by assumption. rewrite digits_not_article by exact D.
    rewrite (contains_lit_digits "f" (bs "ew")) by (auto; reflexivity). rewrite (contains_lit_digits "h" (bs "alf")) by (auto; reflexivity).
    rewrite stoi_digits by assumption. destruct (INT_MAX <? decimal w) eqn:E; [right; repeat split; auto; lia|left].
    replace (decimal w <? 0) with false by lia. reflexivity. }
  all: repeat match goal with R : set_ok true false [CClass false KSpace] ?c = true, Q : Forall (fun c => set_ok true false [CClass false KSpace] c = true) ?x |- _ =>
         assert (blanks (c :: x)) by (apply space_run; constructor; assumption); clear Q
       end.
  - exists (Whole 1). split; [apply sp_article; left; reflexivity|]. split; [lia|left; vm_compute; reflexivity].
  - match goal with B : blanks (?c :: ?sp) |- _ => exists (Whole 3); split;
      [exact (sp_few (bs "a") (c :: sp) (or_introl eq_refl) B ltac:(discriminate))
      |split; [lia|left; exact (article_few (bs "a") (c :: sp) (or_introl eq_refl) B ltac:(discriminate))]] end.
  - exists (Whole 1). split; [apply sp_article; right; reflexivity|]. split; [lia|left; vm_compute; reflexivity].
  - match goal with B : blanks (?c :: ?sp) |- _ => exists (Whole 3); split;
      [exact (sp_few (bs "an") (c :: sp) (or_intror eq_refl) B ltac:(discriminate))
      |split; [lia|left; exact (article_few (bs "an") (c :: sp) (or_intror eq_refl) B ltac:(discriminate))]] end.
  - exists Half. split; [apply sp_half|vm_compute; reflexivity].
  - match goal with B : blanks (?c :: ?sp) |- _ => exists Half; split;
      [exact (sp_half_a (bs "a") (c :: sp) (or_introl eq_refl) B ltac:(discriminate))
      |exact (half_article (bs "a") (c :: sp) (or_introl eq_refl) B ltac:(discriminate))] end.
  - match goal with B : blanks (?c :: ?sp) |- _ => exists Half; split;
      [exact (sp_half_a (bs "an") (c :: sp) (or_intror eq_refl) B ltac:(discriminate))
      |exact (half_article (bs "an") (c :: sp) (or_intror eq_refl) B ltac:(discriminate))] end.
Qed.

(** ** units *)
Lemma deadline_unit u : low u -> lang true dl_unit u -> In u (map bs all_units).
Proof. intros Lw L. word_cases L; vm_compute; tauto. Qed.

(** ** the date arithmetic *)
Lemma imply_ymd_spec c r : real_date c -> exists r', imply_ymd (dn_of c) r = Ret r' /\
  r' = on_start (fun p => implyComponent "mday" (cd c) (implyComponent "month" (cm c) (implyComponent "year" (cy c) p))) r.
Proof. intros R. unfold imply_ymd. rewrite get_date by exact R. eauto. Qed.
Lemma imply_ymd_inv d r r' : imply_ymd d r = Ret r' -> exists c, real_date c /\ d = dn_of c /\
  r' = on_start (fun p => implyComponent "mday" (cd c) (implyComponent "month" (cm c) (implyComponent "year" (cy c) p))) r.
Proof.
  intros H. unfold imply_ymd in H. pose proof H as H'. apply bind_ret in H as (y & Y & _). apply d_year_inv in Y as (c & R & -> & _).
  rewrite get_date in H' by exact R. injection H' as <-. eauto.
Qed.
Lemma day_shift c n c' : real_date c' -> dn_of c + n = dn_of c' -> days_after n c c'.
Proof. intros [V _] E. split; [exact V|]. unfold dn_of in E. lia. Qed.
Lemma day_shift_small c n c' : real_date c -> real_date c' -> dn_of c + n = dn_of c' -> n < 2 ^ 24.
Proof. intros R R' E. apply real_range in R, R'. unfold LO, HI in *. lia. Qed.
Lemma add_months_inv c n d : real_date c -> add_months (dn_of c) n = Ret d -> -32767 <= n <= 32767 /\ exists c', real_date c' /\ d = dn_of c' /\ months_after n c c'.
Proof.
  intros R H. assert (Hn : -32767 <= n <= 32767).
  { unfold add_months in H. rewrite ymd_real in H by exact R. cbn [bind] in H. destruct ((n <? -32767) || (32767 <? n)) eqn:E; [discriminate|]. lia. }
  split; [exact Hn|].
  assert (Dec : in_range_year (shift_months c n) \/ ~ in_range_year (shift_months c n)) by (unfold in_range_year; lia).
  destruct Dec as [I|I]; [|rewrite add_months_out in H by assumption; discriminate].
  rewrite add_months_real in H by assumption. injection H as <-. exists (shift_months c n). split; [split; [apply shift_months_valid; apply R|exact I]|].
  split; [reflexivity|apply shift_months_spec].
Qed.

Lemma day_result_new ref idx tx c : real_date c -> 
  day_result (r_start (on_start (fun p => implyComponent "mday" (cd c) (implyComponent "month" (cm c) (implyComponent "year" (cy c) p))) (res_new ref idx tx))) c.
Proof. intros R. split; [exact R|]. comps. Qed.

(** ** the clock arithmetic *)
Ltac Zify.zify_post_hook ::= Z.div_mod_to_equations.
Lemma clock_of x t us n h mi s : real_instant t us -> x = ptime_of t us + n * SEC -> pt_hours x = Ret h -> pt_minutes x = Ret mi -> pt_seconds x = Ret s ->
  forall t', seconds_after n t t' -> h = mhour t' /\ mi = mmin t' /\ s = msec t'.
Proof.
  intros H Ex Hh Hm Hs t' (V & B1 & B2 & B3 & E).
  assert (X : x = dn_of (mdate t') * DAY + (3600 * mhour t' + 60 * mmin t' + msec t') * SEC + us).
  { subst x. unfold ptime_of, sec_count, dn_of, DAY, SEC in *. lia. }
  assert (T : x mod DAY = (3600 * mhour t' + 60 * mmin t' + msec t') * SEC + us).
  { destruct H as [_ Hu]. rewrite X. symmetry. apply (Z.mod_unique _ _ (dn_of (mdate t'))); unfold DAY, SEC in *; lia. }
  unfold pt_hours, pt_minutes, pt_seconds, pt_tod in *. destruct (0 <=? x); [|discriminate]. cbn [bind] in *.
  injection Hh as <-. injection Hm as <-. injection Hs as <-. rewrite T. destruct H as [_ Hu]. clear - B1 B2 B3 Hu.
  unfold HOUR, MINUTE, SEC in *. repeat split; lia.
Qed.

Ltac finds := repeat match goal with
  | |- context [contains ?a ?b] => let v := eval vm_compute in (contains a b) in change (contains a b) with v
  | |- context [starts_with ?a ?b] => let v := eval vm_compute in (starts_with a b) in change (starts_with a b) with v
  end; cbn [andb orb negb].

Definition deadline_said (t : moment) (n u : bytes) (q : quantity) (res : result) : Prop :=
  let p := r_start res in
  untouched [WDay; TzOffset] p /\
  (forall w k, u = bs w -> In (w, k) full_units -> deadline_means t q k p) /\
  (In u (map bs abbreviations) -> date_implied p (mdate t) /\ clock_implied p t).

Definition deadline_rest (num : fnum) (u : bytes) (ref : ptime) (tmpDate : date) (res : result) : outcome result :=
    if dwmy u then
      if contains (bs "day") u && negb (f_whole num) then
        let t := ref + 12 * HOUR in
        d <- pt_date t ;;
        res <- imply_ymd d res ;;
        h <- pt_hours t ;; mi <- pt_minutes t ;;
        Ret (on_start (fun p => implyComponent "min" mi (implyComponent "hour" h p)) res)
      else
        d <- deadline_date num u tmpDate ;;
        imply_ymd d res
    else
      t <- deadline_time num u ref ;;
      res <- imply_ymd tmpDate res ;;
      h <- pt_hours t ;; mi <- pt_minutes t ;; s <- pt_seconds t ;;
      Ret (setTag TDeadline
            (on_start (fun p => implyComponent "sec" s (implyComponent "min" mi (implyComponent "hour" h p))) res)).

Lemma same_unit w x k k' : bs w = bs x -> In (x, k) full_units -> In (w, k') full_units -> k' = k.
Proof.
  intros E I I'. assert (w = x). { rewrite <- (string_of_list_ascii_of_string w), <- (string_of_list_ascii_of_string x). unfold bs in E. rewrite E. reflexivity. }
  subst w. cbn in I, I'. repeat (destruct I as [I|I]; [injection I as <- <-; repeat (destruct I' as [I'|I']; [congruence|]); contradiction|]). contradiction.
Qed.
Lemma full_not_abbr x k : In (x, k) full_units -> ~ In (bs x) (map bs abbreviations).
Proof.
  intros I. cbn in I. repeat (destruct I as [I|I]; [injection I as <- <-; cbn; intros J; repeat (destruct J as [J|J]; [discriminate|]); contradiction|]). contradiction.
Qed.
(** one full unit name is enough *)
Lemma said_full t n x k q res : untouched [WDay; TzOffset] (r_start res) -> In (x, k) full_units -> deadline_means t q k (r_start res) ->
  deadline_said t n (bs x) q res.
Proof.
  intros U I M. split; [exact U|]. split.
  - intros w k' E I'. symmetry in E. rewrite (same_unit _ _ _ _ E I I'). exact M.
  - intros J. destruct (full_not_abbr _ _ I J).
Qed.
Lemma said_abbr t n x q res : untouched [WDay; TzOffset] (r_start res) -> In x abbreviations -> date_implied (r_start res) (mdate t) -> clock_implied (r_start res) t ->
  deadline_said t n (bs x) q res.
Proof.
  intros U I D C. split; [exact U|]. split; [|auto]. intros w k E I'. exfalso. apply (full_not_abbr _ _ I'). rewrite <- E. apply in_map. exact I.
Qed.

Definition num_of (q : quantity) : fnum := match q with Whole k => FInt (fround k) | Half => FHalf end.

Lemma days_case t us k n idx tx res : real_instant t us -> 0 <= k -> n = fround k ->
  forall m, m = 1 \/ m = 7 -> imply_ymd (dn_of (mdate t) + m * n) (res_new (ptime_of t us) idx tx) = Ret res ->
  (exists c, days_after (m * k) (mdate t) c /\ day_result (r_start res) c) /\ untouched [WDay; TzOffset] (r_start res).
Proof.
  intros H Hk -> m Hm X. apply imply_ymd_inv in X as (c & R & E & ->). 
  assert (L : m * fround k < 2 ^ 24) by (eapply day_shift_small; [apply H|exact R|exact E]).
  pose proof (fround_nonneg k Hk). rewrite fround_exact in E by (auto; destruct Hm; lia).
  split; [exists c; split; [apply day_shift; assumption|apply day_result_new; exact R]|comps].
Qed.
Lemma months_case t us k n idx tx res : real_instant t us -> 0 <= k -> n = fround k ->
  forall m, m = 1 \/ m = 12 -> (d <- add_months (dn_of (mdate t)) (m * n) ;; imply_ymd d (res_new (ptime_of t us) idx tx)) = Ret res ->
  (exists c, months_after (m * k) (mdate t) c /\ day_result (r_start res) c) /\ untouched [WDay; TzOffset] (r_start res).
Proof.
  intros H Hk -> m Hm X. apply bind_ret in X as (d & A & X). apply add_months_inv in A as (B & c & R & -> & M); [|apply H].
  apply imply_ymd_inv in X as (c' & R' & E & ->). assert (c' = c). { pose proof (ymd_real c R) as Q. rewrite E, ymd_real in Q by exact R'. injection Q as Q1 Q2 Q3. destruct c, c'; cbn in *; congruence. } subst c'.
  pose proof (fround_nonneg k Hk). rewrite fround_exact in M by (auto; destruct Hm; lia).
  split; [exists c; split; [assumption|apply day_result_new; exact R]|comps].
Qed.
Lemma clock_case t us x secs idx tx res : real_instant t us -> x = ptime_of t us + secs * SEC ->
  (res <- imply_ymd (dn_of (mdate t)) (res_new (ptime_of t us) idx tx) ;;
      h <- pt_hours x ;; mi <- pt_minutes x ;; s <- pt_seconds x ;;
      Ret (setTag TDeadline
            (on_start (fun p => implyComponent "sec" s (implyComponent "min" mi (implyComponent "hour" h p))) res))) = Ret res ->
  (date_implied (r_start res) (mdate t) /\ forall t', seconds_after secs t t' -> clock_implied (r_start res) t') /\ untouched [WDay; TzOffset] (r_start res).
Proof.
  intros H E X. destruct (imply_ymd_spec (mdate t) (res_new (ptime_of t us) idx tx) (proj1 (proj1 H))) as (r1 & E1 & ->). rewrite E1 in X. cbn [bind] in X.
  apply bind_ret in X as (h & Hh & X). apply bind_ret in X as (mi & Hm & X). apply bind_ret in X as (s & Hs & X). injection X as <-.
  split; [split|]; [comps| |comps]. intros t' Sa. destruct (clock_of _ _ _ _ _ _ _ H E Hh Hm Hs t' Sa) as (-> & -> & ->). unfold clock_implied. comps.
Qed.
Lemma seconds_self t us : real_instant t us -> seconds_after 0 t t.
Proof. intros [(R & A & B & C) _]. repeat split; try apply R; try lia. Qed.

Lemma deadline_rest_said t us q n u idx tx res : real_instant t us -> In u (map bs all_units) -> (forall k, q = Whole k -> 0 <= k) ->
  deadline_rest (num_of q) u (ptime_of t us) (dn_of (mdate t)) (res_new (ptime_of t us) idx tx) = Ret res ->
  deadline_said t n u q res.
Proof.
  intros H Iu Hq. unfold deadline_rest, dwmy, deadline_date, deadline_time, add_days, add_weeks, add_years.
  assert (Fl : forall k d, f2long (FInt k) = Ret d -> d = k). { intros k d. cbn. destruct (_ || _); [discriminate|]. congruence. }
  assert (Fi : forall k d, f2int (FInt k) = Ret d -> d = k). { intros k d. cbn. destruct (_ || _); [discriminate|]. congruence. }
  assert (Days : forall x m k, (m = 1 \/ m = 7) -> q = Whole k -> In x (map fst full_units) -> 
     (d <- (n <- f2long (FInt (fround k)) ;; Ret (dn_of (mdate t) + m * n)) ;; imply_ymd d (res_new (ptime_of t us) idx tx)) = Ret res ->
     (exists c, days_after (m * k) (mdate t) c /\ day_result (r_start res) c) /\ untouched [WDay; TzOffset] (r_start res)).
  { intros x m k Hm E _ X. apply bind_ret in X as (d & F & X). apply bind_ret in F as (n' & F & G). injection G as <-. apply Fl in F.
    exact (days_case t us k n' idx tx res H (Hq k E) F m Hm X). }
  assert (Months : forall m k, (m = 1 \/ m = 12) -> q = Whole k ->
     (d <- (n <- f2int (FInt (fround k)) ;; add_months (dn_of (mdate t)) (m * n)) ;; imply_ymd d (res_new (ptime_of t us) idx tx)) = Ret res ->
     (exists c, months_after (m * k) (mdate t) c /\ day_result (r_start res) c) /\ untouched [WDay; TzOffset] (r_start res)).
  { intros m k Hm E X. apply bind_ret in X as (d & F & X). apply bind_ret in F as (n' & F & G). apply Fi in F.
    apply (months_case t us k n' idx tx res H (Hq k E) F m Hm). rewrite G. exact X. }
  pose proof (proj1 (proj1 H)) as Rt.
  assert (HalfDays : forall n', imply_ymd (dn_of (mdate t) + n') (res_new (ptime_of t us) idx tx) = Ret res ->
     (exists c, days_after n' (mdate t) c /\ day_result (r_start res) c) /\ untouched [WDay; TzOffset] (r_start res)).
  { intros n' X. apply imply_ymd_inv in X as (c & R & E & ->). split; [exists c; split; [apply day_shift; assumption|apply day_result_new; exact R]|comps]. }
  assert (HalfYear : (d <- add_months (dn_of (mdate t)) 6 ;; imply_ymd d (res_new (ptime_of t us) idx tx)) = Ret res ->
     (exists c, months_after 6 (mdate t) c /\ day_result (r_start res) c) /\ untouched [WDay; TzOffset] (r_start res)).
  { intros X. exact (months_case t us 6 6 idx tx res H ltac:(lia) eq_refl 1 (or_introl eq_refl) X). }
  assert (HalfDay : (d <- pt_date (ptime_of t us + 12 * HOUR) ;; res <- imply_ymd d (res_new (ptime_of t us) idx tx) ;;
        h <- pt_hours (ptime_of t us + 12 * HOUR) ;; mi <- pt_minutes (ptime_of t us + 12 * HOUR) ;;
        Ret (on_start (fun p => implyComponent "min" mi (implyComponent "hour" h p)) res)) = Ret res ->
     (exists t', real_moment t' /\ seconds_after 43200 t t' /\ date_implied (r_start res) (mdate t') /\ implied_is Hour (mhour t') (r_start res)
        /\ implied_is Min (mmin t') (r_start res) /\ untouched [Sec] (r_start res)) /\ untouched [WDay; TzOffset] (r_start res)).
  { intros X. apply bind_ret in X as (d & Pd & X). apply bind_ret in X as (r1 & I1 & X). apply bind_ret in X as (h & Hh & X). apply bind_ret in X as (mi & Hm & X).
    injection X as <-. apply imply_ymd_inv in I1 as (c & Rc & -> & ->).
    pose (tod := (3600 * mhour t + 60 * mmin t + msec t + 43200) mod 86400).
    set (t' := Moment c (tod / 3600) (tod / 60 mod 60) (tod mod 60)).
    assert (Sa : seconds_after 43200 t t').
    { apply pt_date_inv in Pd as (_ & _ & _ & Pd).
      destruct H as [(_ & B1 & B2 & B3) Hu]. pose proof (proj1 Rc) as Vc.
      assert (Ed : dn_of c = dn_of (mdate t) + (3600 * mhour t + 60 * mmin t + msec t + 43200) / 86400).
      { rewrite Pd. unfold ptime_of, DAY, HOUR, SEC in *. generalize (dn_of (mdate t)). clear - B1 B2 B3 Hu. intros z.
        set (a := 3600 * mhour t + 60 * mmin t + msec t + 43200).
        symmetry. apply (Z.div_unique _ _ _ (a mod 86400 * 1000000 + us)); subst a; lia. }
      split; [exact Vc|]. unfold t', sec_count. cbn [mdate mhour mmin msec]. unfold dn_of in Ed. subst tod. clear - B1 B2 B3 Ed. repeat split; lia. }
    assert (Hs : exists s, pt_seconds (ptime_of t us + 12 * HOUR) = Ret s).
    { unfold pt_hours, pt_seconds, pt_tod in *. destruct (0 <=? _); [cbn [bind]; eauto|discriminate]. }
    destruct Hs as [s Hs].
    assert (E12 : ptime_of t us + 12 * HOUR = ptime_of t us + 43200 * SEC) by (unfold HOUR, SEC; lia).
    destruct (clock_of _ t us 43200 h mi s H E12 Hh Hm Hs t' Sa) as (-> & -> & _).
    split; [exists t'; split; [|split; [exact Sa|]]|comps].
    - destruct Sa as (_ & B1 & B2 & B3 & _). split; [exact Rc|auto].
    - change (mdate t') with c. generalize (mhour t') (mmin t'). intros hh mm. split; [|split; [|split]]; comps. }
  assert (Clk : forall x secs, x = ptime_of t us + secs * SEC -> 
    (res <- imply_ymd (dn_of (mdate t)) (res_new (ptime_of t us) idx tx) ;;
      h <- pt_hours x ;; mi <- pt_minutes x ;; s <- pt_seconds x ;;
      Ret (setTag TDeadline
            (on_start (fun p => implyComponent "sec" s (implyComponent "min" mi (implyComponent "hour" h p))) res))) = Ret res ->
    (date_implied (r_start res) (mdate t) /\ forall t', seconds_after secs t t' -> clock_implied (r_start res) t') /\ untouched [WDay; TzOffset] (r_start res)).
  { intros x secs Ex X. exact (clock_case t us x secs idx tx res H Ex X). }
  assert (ClkN : forall k size, 0 <= size -> q = Whole k -> 
    (x <- (n <- f2int (FInt (fround k)) ;; Ret (ptime_of t us + n * (size * SEC))) ;;
     res <- imply_ymd (dn_of (mdate t)) (res_new (ptime_of t us) idx tx) ;;
      h <- pt_hours x ;; mi <- pt_minutes x ;; s <- pt_seconds x ;;
      Ret (setTag TDeadline
            (on_start (fun p => implyComponent "sec" s (implyComponent "min" mi (implyComponent "hour" h p))) res))) = Ret res ->
    (exists secs, (k <= 2 ^ 24 -> secs = size * k) /\ 0 <= secs /\ date_implied (r_start res) (mdate t) /\ forall t', seconds_after secs t t' -> clock_implied (r_start res) t')
     /\ untouched [WDay; TzOffset] (r_start res)).
  { intros k size Hz E X. apply bind_ret in X as (x & F & X). apply bind_ret in F as (n' & F & G). apply Fi in F. injection G as <-. subst n'.
    destruct (Clk (ptime_of t us + fround k * (size * SEC)) (size * fround k) ltac:(lia) X) as [A U]. split; [|exact U]. exists (size * fround k). split; [|split; [apply Z.mul_nonneg_nonneg; [exact Hz|apply fround_nonneg; exact (Hq k E)]|exact A]].
    intros Hk. rewrite fround_small; [lia|]. specialize (Hq k E). lia. }
  assert (Abb : (res <- imply_ymd (dn_of (mdate t)) (res_new (ptime_of t us) idx tx) ;;
      h <- pt_hours (ptime_of t us) ;; mi <- pt_minutes (ptime_of t us) ;; s <- pt_seconds (ptime_of t us) ;;
      Ret (setTag TDeadline
            (on_start (fun p => implyComponent "sec" s (implyComponent "min" mi (implyComponent "hour" h p))) res))) = Ret res ->
     (date_implied (r_start res) (mdate t) /\ clock_implied (r_start res) t) /\ untouched [WDay; TzOffset] (r_start res)).
  { intros X. destruct (Clk (ptime_of t us) 0 ltac:(lia) X) as [[A B] U]. split; [split; [exact A|]|exact U]. apply B. exact (seconds_self t us H). }
  Local Ltac full x k P := let A := fresh "A" in let U := fresh "U" in destruct P as [A U]; apply (said_full _ _ x k); [exact U|cbn; tauto|exact A].
  Local Ltac abbr x P := let A := fresh "A" in let B := fresh "A" in let U := fresh "U" in destruct P as [[A B] U]; apply (said_abbr _ _ x); [exact U|cbn; tauto|exact A|exact B].
  Local Ltac start := finds; let X := fresh "X" in intros X.
  destruct Iu as [<-|[<-|[<-|[<-|[<-|[<-|[<-|[<-|[<-|[<-|[<-|[<-|[<-|[<-|Iu]]]]]]]]]]]]]].
  15: { cbn in Iu. repeat (destruct Iu as [<-|Iu]; [start; cbn [bind] in *|]); [..|contradiction].
        abbr "sec" (Abb X). abbr "secs" (Abb X). abbr "min" (Abb X). abbr "mins" (Abb X). abbr "hr" (Abb X). abbr "hrs" (Abb X).
        abbr "wk" (Abb X). abbr "wks" (Abb X). abbr "yr" (Abb X). abbr "yrs" (Abb X). }
  all: start; destruct q as [k|]; cbn [num_of f_whole negb] in X.

  Local Ltac day1 Days X k t us idx tx res :=
    let D := fresh "D" in
    assert (D := Days "day" 1 k (or_introl eq_refl) eq_refl ltac:(cbn; tauto)); rewrite Z.mul_1_l in D;
    let X' := fresh "X'" in
    assert (X' : (d <- (n <- f2long (FInt (fround k)) ;; Ret (dn_of (mdate t) + 1 * n)) ;; imply_ymd d (res_new (ptime_of t us) idx tx)) = Ret res);
    [let d := fresh "d" in let F := fresh "F" in apply bind_ret in X as (d & F & X); let n' := fresh "n'" in let G := fresh "G" in apply bind_ret in F as (n' & F & G); rewrite F; cbn [bind]; rewrite Z.mul_1_l; injection G as ->; exact X
    |specialize (D X')].
  Local Ltac month1 Months X k t us idx tx res :=
    let D := fresh "D" in
    assert (D := Months 1 k (or_introl eq_refl) eq_refl); rewrite Z.mul_1_l in D;
    let X' := fresh "X'" in
    assert (X' : (d <- (n <- f2int (FInt (fround k)) ;; add_months (dn_of (mdate t)) (1 * n)) ;; imply_ymd d (res_new (ptime_of t us) idx tx)) = Ret res);
    [let d := fresh "d" in let F := fresh "F" in apply bind_ret in X as (d & F & X); let n' := fresh "n'" in let G := fresh "G" in apply bind_ret in F as (n' & F & G); rewrite F; cbn [bind]; rewrite Z.mul_1_l, G; exact X
    |specialize (D X')].
  Local Ltac whole_clock x u ClkN k X size := let A := fresh "A" in let U := fresh "U" in destruct (ClkN k size ltac:(lia) eq_refl X) as [A U]; apply (said_full _ _ x u); [exact U|cbn; tauto|exact A].
  Local Ltac half_clock x u Clk X secs := let A := fresh "A" in let U := fresh "U" in let P := fresh "P" in pose proof (fun E => Clk _ secs E X) as P; destruct P as [A U]; [unfold MINUTE, SEC; ring|]; apply (said_full _ _ x u); [exact U|cbn; tauto|exists secs; split; [reflexivity|split; [lia|exact A]]].
  - day1 Days X k t us idx tx res. full "day" UDay D.
  - full "day" UDay (HalfDay X).
  - day1 Days X k t us idx tx res. full "days" UDay D.
  - full "days" UDay (HalfDay X).
  - full "week" UWeek (Days "week" 7 k (or_intror eq_refl) eq_refl ltac:(cbn; tauto) X).
  - full "week" UWeek (HalfDays _ X).
  - full "weeks" UWeek (Days "week" 7 k (or_intror eq_refl) eq_refl ltac:(cbn; tauto) X).
  - full "weeks" UWeek (HalfDays _ X).
  - month1 Months X k t us idx tx res. full "month" UMonth D.
  - full "month" UMonth (HalfDays _ X).
  - month1 Months X k t us idx tx res. full "months" UMonth D.
  - full "months" UMonth (HalfDays _ X).
  - full "year" UYear (Months 12 k (or_intror eq_refl) eq_refl X).
  - full "year" UYear (HalfYear X).
  - full "years" UYear (Months 12 k (or_intror eq_refl) eq_refl X).
  - full "years" UYear (HalfYear X).
  - whole_clock "hour" UHour ClkN k X 3600.
  - half_clock "hour" UHour Clk X 1800.
  - whole_clock "hours" UHour ClkN k X 3600.
  - half_clock "hours" UHour Clk X 1800.
  - whole_clock "minute" UMinute ClkN k X 60.
  - half_clock "minute" UMinute Clk X 30.
  - whole_clock "minutes" UMinute ClkN k X 60.
  - half_clock "minutes" UMinute Clk X 30.
  - whole_clock "second" USecond ClkN k X 1.
  - half_clock "second" USecond Clk X 1.
  - whole_clock "seconds" USecond ClkN k X 1.
  - half_clock "seconds" USecond Clk X 1.
Qed.

(** ** every match *)
Lemma lastc_irrel u p q : u <> [] -> lastc u p = lastc u q.
Proof. destruct u; [congruence|reflexivity]. Qed.
Lemma lang_nonempty ic r w : lang ic r w -> (1 <= min_len r)%nat -> w <> [].
Proof. intros L M ->. apply min_len_ok in L. cbn in L. lia. Qed.
Lemma deadline_wb t m : search true deadline_re t = Some m ->
  exists pre post kw s1 n s2 u, t = pre ++ m_str m ++ post /\ m_pos m = List.length pre /\
    m_str m = kw ++ s1 ++ n ++ s2 ++ u /\ lang true dl_kw kw /\ blanks s1 /\ s1 <> [] /\ lang true dl_num n /\
    blanks s2 /\ s2 <> [] /\ lang true dl_unit u /\ grp m 3 = n /\ grp m 4 = u /\ (forall p, wb_at (lastc u p) post).
Proof.
  intros H. shape H. unfold grp. rewrite C. clear C. unfold deadline_re in M. mt_crack M.
  shape_end Es. rewrite <- Es in *. clear Es.
  repeat match goal with L : lang _ SPp _ |- _ => apply SPp_blanks in L as [? ?] end.
  eexists pre, _, _, _, _, _, _. repeat split; eauto.
  intros p. match goal with W : wb_at (lastc ?u ?q) ?post, L : lang _ dl_unit ?u |- _ =>
    rewrite (lastc_irrel u p q) by (apply (lang_nonempty _ _ _ L); vm_compute; lia); exact W end.
Qed.

Lemma kw_words w : low w -> lang true dl_kw w -> w = bs "in" \/ w = bs "within".
Proof. intros Lw L. word_cases L; tauto. Qed.

Lemma low_pieces a b : low (a ++ b) -> low a /\ low b.
Proof. apply low_app. Qed.

(** every match that gives a possible date spells a quantity and a unit, and means what it says *)
Lemma deadline_extracted e tx m t us idx res : real_instant t us -> low tx -> search true deadline_re tx = Some m ->
  deadline_extract e gwords_init tx m (ptime_of t us) idx = Ret res -> hasPossibleDates res = true ->
  exists kw s1 n s2 u q, m_str m = kw ++ s1 ++ n ++ s2 ++ u /\ (kw = bs "in" \/ kw = bs "within") /\ blanks s1 /\ s1 <> [] /\ spells n q /\
    blanks s2 /\ s2 <> [] /\ In u (map bs all_units) /\ deadline_said t n u q res /\ r_text res = m_str m /\ r_index res = u32 idx /\ has_end res = false.
Proof.
  intros H Hl S X P. destruct (deadline_match _ _ S) as (pre & post & kw & s1 & n & s2 & u & E & _ & Em & Lk & B1 & N1 & Ln & B2 & N2 & Lu & G3 & G4).
  assert (Lm : low (m_str m)) by (rewrite E in Hl; eapply low_part; exact Hl). rewrite Em in Lm.
  apply low_app in Lm as [Lok Lm]. apply low_app in Lm as [_ Lm]. apply low_app in Lm as [Lon Lm]. apply low_app in Lm as [_ Lou].
  destruct (deadline_amount_spec n Lon Ln) as (q & Sq & A).
  pose proof (deadline_unit u Lou Lu) as Iu. pose proof (kw_words kw Lok Lk) as Ik.
  exists kw, s1, n, s2, u, q. do 8 (split; [assumption|]).
  assert (Q : deadline_amount gwords_init n = Some (num_of q) /\ (forall k, q = Whole k -> 0 <= k)).
  { destruct q as [k|]; cbn [amount_ok num_of] in *; [|split; [exact A|discriminate]].
    destruct A as (Hk & A). split; [|intros ? E'; injection E' as <-; exact Hk].
    destruct A as [A|(A & _)]; [exact A|]. exfalso. unfold deadline_extract in X. rewrite G3, A in X. rewrite pt_date_of in X by exact H. cbn [bind] in X. injection X as <-.
    vm_compute in P. discriminate. }
  destruct Q as [Q Hq].
  assert (X' : deadline_rest (num_of q) u (ptime_of t us) (dn_of (mdate t)) (res_new (ptime_of t us) idx (m_str m)) = Ret res).
  { unfold deadline_extract in X. rewrite G3, Q, G4, pt_date_of in X by exact H. cbn [bind grp] in X. exact X. }
  split; [exact (deadline_rest_said t us q n u idx (m_str m) res H Iu Hq X')|].
  clear - X' H. unfold deadline_rest in X'.
  assert (I0 : forall d r r', imply_ymd d r = Ret r' -> r_text r' = r_text r /\ r_index r' = r_index r /\ has_end r' = has_end r).
  { intros d r r' I. apply imply_ymd_inv in I as (c & _ & _ & ->). destruct r; cbn. auto. }
  destruct (dwmy u); [destruct (_ && _)|].
  - apply bind_ret in X' as (d & _ & X). apply bind_ret in X as (r1 & I1 & X). apply bind_ret in X as (h & _ & X). apply bind_ret in X as (mi & _ & X).
    injection X as <-. apply I0 in I1 as (A & B & C). destruct r1; cbn in *. auto.
  - apply bind_ret in X' as (d & _ & X). apply I0 in X as (A & B & C). auto.
  - apply bind_ret in X' as (d & _ & X). apply bind_ret in X as (r1 & I1 & X). apply bind_ret in X as (h & _ & X). apply bind_ret in X as (mi & _ & X). apply bind_ret in X as (s & _ & X).
    injection X as <-. apply I0 in I1 as (A & B & C). unfold setTag. destruct r1; cbn in *. match goal with |- context [match ?x with _ => _ end] => destruct x end; auto.
Qed.

(** ** tokens *)
Definition solid (w : bytes) : Prop := Forall (fun c => is_space c = false) w.
Definition head_blank (w : bytes) : Prop := match w with c :: _ => is_space c = true | [] => True end.
Definition head_solid (w : bytes) : Prop := match w with c :: _ => is_space c = false | [] => True end.
Lemma solid_tok a b x y : solid a -> solid b -> head_blank x -> head_blank y -> a ++ x = b ++ y -> a = b /\ x = y.
Proof.
  intros A. revert b. induction A as [|c a Hc A IH]; intros b B X Y E; destruct B as [|d b Hd B]; cbn [app] in E.
  - auto.
  - subst x. cbn in X. congruence.
  - subst y. cbn in Y. congruence.
  - injection E as <- E. destruct (IH b B X Y E) as [-> ->]. auto.
Qed.
Lemma blank_tok a b x y : blanks a -> blanks b -> head_solid x -> head_solid y -> a ++ x = b ++ y -> a = b /\ x = y.
Proof.
  intros A. revert b. induction A as [|c a Hc A IH]; intros b B X Y E; destruct B as [|d b Hd B]; cbn [app] in E.
  - auto.
  - subst x. cbn in X. congruence.
  - subst y. cbn in Y. congruence.
  - injection E as <- E. destruct (IH b B X Y E) as [-> ->]. auto.
Qed.
Lemma head_blank_app a x : blanks a -> a <> [] -> head_blank (a ++ x).
Proof. intros B N. destruct a; [congruence|]. inversion B; assumption. Qed.
Lemma head_solid_app a x : solid a -> a <> [] -> head_solid (a ++ x).
Proof. intros B N. destruct a; [congruence|]. inversion B; assumption. Qed.
Lemma solid_digits w : digits w -> solid w.
Proof. apply Forall_impl. exact digit_not_space. Qed.
Ltac solid_lit := repeat constructor.

(** a spelled quantity is one solid token, or two of which the second is few, a or an *)
Lemma spells_tokens n q : spells n q -> exists a rest, n = a ++ rest /\ solid a /\ a <> [] /\
  (rest = [] \/ exists sp b, rest = sp ++ b /\ blanks sp /\ sp <> [] /\ (b = bs "few" \/ article b)).
Proof.
  intros S. destruct S as [w k I|w D N|a A|a sp A B N| |a sp A B N].
  - exists (bs w), []. rewrite app_nil_r. split; [reflexivity|]. cbn in I.
    repeat (destruct I as [I|I]; [injection I as <- <-; split; [solid_lit|split; [discriminate|tauto]]|]). contradiction.
  - exists w, []. rewrite app_nil_r. split; [reflexivity|]. split; [apply solid_digits; exact D|auto].
  - exists a, []. rewrite app_nil_r. split; [reflexivity|]. destruct A as [-> | ->]; (split; [solid_lit|split; [discriminate|tauto]]).
  - exists a, (sp ++ bs "few"). split; [reflexivity|]. split; [destruct A as [-> | ->]; solid_lit|]. split; [destruct A as [-> | ->]; discriminate|].
    right. exists sp, (bs "few"). auto.
  - exists (bs "half"), []. rewrite app_nil_r. split; [reflexivity|]. split; [solid_lit|split; [discriminate|tauto]].
  - exists (bs "half"), (sp ++ a). split; [reflexivity|]. split; [solid_lit|]. split; [discriminate|]. right. exists sp, a. auto.
Qed.
Lemma unit_solid u : In u (map bs all_units) -> solid u /\ u <> [] /\ Forall (fun c => is_word c = true) u.
Proof.
  intros I. unfold all_units in I. cbn in I. repeat (destruct I as [<-|I]; [split; [solid_lit|split; [discriminate|repeat constructor]]|]). contradiction.
Qed.
Lemma second_not_unit b u : In u (map bs all_units) -> b = bs "few" \/ article b -> forall x, b = u ++ x -> False.
Proof.
  intros I B x E. unfold all_units in I. cbn in I. repeat (destruct I as [<-|I]; [destruct B as [->|[-> | ->]]; discriminate|]). contradiction.
Qed.
Lemma second_not_unit' b u : In u (map bs all_units) -> b = bs "few" \/ article b -> b <> u.
Proof. intros I B E. apply (second_not_unit b u I B []). rewrite app_nil_r. exact E. Qed.
Lemma second_solid b : b = bs "few" \/ article b -> solid b /\ b <> [].
Proof. intros [->|[-> | ->]]; (split; [solid_lit|discriminate]). Qed.

(** a unit at the start of a run of word characters that ends at a boundary is the whole run *)
Lemma whole_word u u' post : u' ++ post = u -> u' <> [] -> Forall (fun c => is_word c = true) u -> (forall p, wb_at (lastc u' p) post) -> post = [].
Proof.
  intros E N W B. destruct post as [|c post]; [reflexivity|]. exfalso. subst u. apply Forall_app in W as [W1 W2]. inversion W2 as [|? ? Wc _]; subst.
  specialize (B None). unfold wb_at in B. cbn [hd_error word_opt] in B. rewrite Wc in B.
  destruct u' as [|x u'] using rev_ind; [congruence|]. rewrite lastc_app in B. cbn in B. apply Forall_app in W1 as [_ W1]. inversion W1 as [|? ? Wx _]; subst. rewrite Wx in B. discriminate.
Qed.

(** the phrase has only one reading *)
Lemma phrase_unique kw s1 n s2 u q kw' s1' n' s2' u' q' post :
  (kw = bs "in" \/ kw = bs "within") -> blanks s1 -> s1 <> [] -> spells n q -> blanks s2 -> s2 <> [] -> In u (map bs all_units) ->
  (kw' = bs "in" \/ kw' = bs "within") -> blanks s1' -> s1' <> [] -> spells n' q' -> blanks s2' -> s2' <> [] -> In u' (map bs all_units) ->
  (forall p, wb_at (lastc u' p) post) ->
  kw' ++ s1' ++ n' ++ s2' ++ u' ++ post = kw ++ s1 ++ n ++ s2 ++ u -> n' = n /\ u' = u /\ post = [] /\ s1' = s1 /\ s2' = s2 /\ kw' = kw.
Proof.
  intros K B1 N1 Sq B2 N2 Iu K' B1' N1' Sq' B2' N2' Iu' W E.
  assert (Kk : forall k, k = bs "in" \/ k = bs "within" -> solid k) by (intros k [-> | ->]; solid_lit).
  apply solid_tok in E as [-> E]; [|auto|auto|apply head_blank_app; assumption|apply head_blank_app; assumption].
  destruct (spells_tokens _ _ Sq) as (a & rest & -> & Sa & Na & R). destruct (spells_tokens _ _ Sq') as (a' & rest' & -> & Sa' & Na' & R').
  rewrite <- !app_assoc in E.
  apply blank_tok in E as [-> E]; [|assumption|assumption|apply head_solid_app; assumption|apply head_solid_app; assumption].
  destruct (unit_solid u Iu) as (Su & Nu & Wu). destruct (unit_solid u' Iu') as (Su' & Nu' & _).
  assert (T : a' = a /\ rest' ++ s2' ++ u' ++ post = rest ++ s2 ++ u).
  { apply solid_tok in E; [exact E|assumption|assumption| |].
    - destruct R' as [->|(sp & b & -> & Bs & Ns & _)]; cbn [app]; rewrite <- ?app_assoc; apply head_blank_app; assumption.
    - destruct R as [->|(sp & b & -> & Bs & Ns & _)]; cbn [app]; rewrite <- ?app_assoc; apply head_blank_app; assumption. }
  destruct T as [-> T].
  assert (Fin : s2' ++ u' ++ post = s2 ++ u -> u' = u /\ post = [] /\ s2' = s2).
  { intros F. apply blank_tok in F as [-> F]; [|assumption|assumption|apply head_solid_app; assumption|].
    - pose proof (whole_word u u' post F Nu' Wu W) as ->. rewrite app_nil_r in F. auto.
    - rewrite <- (app_nil_r u). apply head_solid_app; assumption. }
  destruct R' as [->|(sp' & b' & -> & Bs' & Ns' & Hb')], R as [->|(sp & b & -> & Bs & Ns & Hb)]; cbn [app] in T; rewrite <- ?app_assoc in T.
  - destruct (Fin T) as (-> & -> & ->). auto 10.
  - exfalso. destruct (second_solid b Hb) as [Sb Nb]. apply blank_tok in T as [-> T]; [|assumption|assumption|apply head_solid_app; assumption|apply head_solid_app; assumption].
    (* u' ++ post = b ++ s2 ++ u *)
    assert (exists x, b = u' ++ x) as [x Ex].
    { clear - T Sb Su' Iu' Hb B2 N2. revert T. generalize (s2 ++ u) as y. intros y T.
      unfold all_units in Iu'. cbn in Iu'.
      repeat (destruct Iu' as [<-|Iu']; [destruct Hb as [->|[-> | ->]]; cbn [bs list_ascii_of_string app] in T; repeat (injection T as ? T || discriminate T || idtac); try discriminate|]); try contradiction. }
    exact (second_not_unit b u' Iu' Hb x Ex).
  - exfalso. destruct (second_solid b' Hb') as [Sb Nb].
    apply blank_tok in T as [-> T]; [|assumption|assumption|apply head_solid_app; assumption|rewrite <- (app_nil_r u); apply head_solid_app; assumption].
    replace u with (u ++ []) in T by apply app_nil_r. apply solid_tok in T as [T _]; [|assumption|assumption|apply head_blank_app; assumption|exact I].
    exact (second_not_unit' b' u Iu Hb' T).
  - destruct (second_solid b Hb) as [Sb Nb]. destruct (second_solid b' Hb') as [Sb' Nb'].
    apply blank_tok in T as [-> T]; [|assumption|assumption|apply head_solid_app; assumption|apply head_solid_app; assumption].
    apply solid_tok in T as [-> T]; [|assumption|assumption|apply head_blank_app; assumption|apply head_blank_app; assumption].
    destruct (Fin T) as (-> & -> & ->). auto 10.
Qed.

(** ** when it returns *)
Definition fits (t : moment) (q : quantity) (u : unit_kind) : Prop :=
  match u, q with
  | UDay, Half => exists t', real_moment t' /\ seconds_after 43200 t t'
  | UHour, Whole k | UMinute, Whole k | USecond, Whole k => k < 2 ^ 30
  | UHour, Half | UMinute, Half | USecond, Half => True
  | _, _ => exists c, real_date c /\ deadline_target t q u c
  end.
Lemma day_fits t n c : real_date (mdate t) -> real_date c -> days_after n (mdate t) c -> dn_of (mdate t) + n = dn_of c /\ n < 2 ^ 24 /\ - 2 ^ 24 < n.
Proof.
  intros R R' [_ E]. assert (D : dn_of (mdate t) + n = dn_of c) by (unfold dn_of; lia). split; [exact D|]. apply real_range in R, R'. unfold LO, HI in *. lia.
Qed.
Lemma fround_below k : 0 <= k < 2 ^ 30 -> 0 <= fround k < 2 ^ 31.
Proof.
  intros Hk. pose proof (fround_nonneg k ltac:(lia)). split; [lia|]. unfold fround.
  destruct (Z.eq_dec k 0) as [->|N]; [cbn; lia|].
  destruct (Z.log2 k + 1 <=? 24) eqn:E; [lia|].
  pose proof (Z.log2_spec k ltac:(lia)). assert (L : Z.log2 k < 30) by (apply Z.log2_lt_pow2; lia).
  set (s := Z.log2 k + 1 - 24) in *. assert (Hs : 0 < s <= 6) by lia.
  assert (P : 0 < 2 ^ s) by (apply Z.pow_pos_nonneg; lia). assert (P6 : 2 ^ s <= 2 ^ 6) by (apply Z.pow_le_mono_r; lia).
  pose proof (Z.mul_div_le k (2 ^ s) P). cbn in P6. destruct (_ || _); nia.
Qed.
Lemma deadline_rest_returns t us q u idx tx : real_instant t us -> In u (map bs all_units) -> (forall k, q = Whole k -> 0 <= k) ->
  (forall w k, u = bs w -> In (w, k) full_units -> fits t q k) ->
  exists res, deadline_rest (num_of q) u (ptime_of t us) (dn_of (mdate t)) (res_new (ptime_of t us) idx tx) = Ret res.
Proof.
  intros H Iu Hq F. pose proof (proj1 (proj1 H)) as Rt.
  assert (Imp : forall c r, real_date c -> exists r', imply_ymd (dn_of c) r = Ret r') by (intros c r R; destruct (imply_ymd_spec c r R) as (r' & -> & _); eauto).
  assert (Clk : forall x, ptime_of t us <= x -> exists res, (res <- imply_ymd (dn_of (mdate t)) (res_new (ptime_of t us) idx tx) ;;
      h <- pt_hours x ;; mi <- pt_minutes x ;; s <- pt_seconds x ;;
      Ret (setTag TDeadline
            (on_start (fun p => implyComponent "sec" s (implyComponent "min" mi (implyComponent "hour" h p))) res))) = Ret res).
  { intros x Hx. destruct (Imp (mdate t) (res_new (ptime_of t us) idx tx) Rt) as [r' ->]. cbn [bind].
    assert (0 <= x). { pose proof (real_range _ Rt). destruct H as [(_ & B1 & B2 & B3) Hu]. unfold ptime_of, DAY, SEC, LO in *. lia. }
    unfold pt_hours, pt_minutes, pt_seconds, pt_tod. replace (0 <=? x) with true by lia. cbn [bind]. eauto. }
  assert (ClkN : forall k size, q = Whole k -> k < 2 ^ 30 -> 0 <= size -> exists res, 
    (x <- (n <- f2int (FInt (fround k)) ;; Ret (ptime_of t us + n * size)) ;;
     res <- imply_ymd (dn_of (mdate t)) (res_new (ptime_of t us) idx tx) ;;
      h <- pt_hours x ;; mi <- pt_minutes x ;; s <- pt_seconds x ;;
      Ret (setTag TDeadline
            (on_start (fun p => implyComponent "sec" s (implyComponent "min" mi (implyComponent "hour" h p))) res))) = Ret res).
  { intros k size E Hk Hs. pose proof (fround_below k ltac:(specialize (Hq k E); lia)) as B. unfold f2int.
    replace ((fround k <? INT_MIN) || (INT_MAX <? fround k)) with false by (unfold INT_MIN, INT_MAX; lia). cbn [bind]. apply Clk. nia. }
  assert (Days : forall n c, real_date c -> days_after n (mdate t) c -> exists res, imply_ymd (dn_of (mdate t) + n) (res_new (ptime_of t us) idx tx) = Ret res).
  { intros n c R D. destruct (day_fits t n c Rt R D) as (-> & _). apply Imp; exact R. }
  assert (DaysN : forall m k c, (m = 1 \/ m = 7) -> q = Whole k -> real_date c -> days_after (m * k) (mdate t) c -> exists res,
     (d <- (n <- f2long (FInt (fround k)) ;; Ret (dn_of (mdate t) + m * n)) ;; imply_ymd d (res_new (ptime_of t us) idx tx)) = Ret res).
  { intros m k c Hm E R D. destruct (day_fits t (m * k) c Rt R D) as (Ed & L1 & L2). specialize (Hq k E). 
    rewrite fround_small by (destruct Hm; lia). unfold f2long. match goal with |- context [if ?b then _ else _] => replace b with false by (destruct Hm; lia) end.
    cbn [bind]. rewrite Ed. apply Imp; exact R. }
  assert (Mon : forall n c, -32767 <= n <= 32767 -> real_date c -> months_after n (mdate t) c -> exists res,
     (d <- add_months (dn_of (mdate t)) n ;; imply_ymd d (res_new (ptime_of t us) idx tx)) = Ret res).
  { intros n c Hn R M. apply months_after_fun in M as ->. rewrite add_months_real by (auto; apply R). cbn [bind]. apply Imp; exact R. }
  assert (MonN : forall m k c, (m = 1 \/ m = 12) -> q = Whole k -> m * k <= 32767 -> real_date c -> months_after (m * k) (mdate t) c -> exists res,
     (d <- (n <- f2int (FInt (fround k)) ;; add_months (dn_of (mdate t)) (m * n)) ;; imply_ymd d (res_new (ptime_of t us) idx tx)) = Ret res).
  { intros m k c Hm E Hk R M. specialize (Hq k E). rewrite fround_small by (destruct Hm; lia). unfold f2int.
    match goal with |- context [if ?b then _ else _] => replace b with false by (unfold INT_MIN, INT_MAX; destruct Hm; lia) end.
    cbn [bind]. apply (Mon (m * k) c); [destruct Hm; lia|exact R|exact M]. }
  assert (HalfDay : (exists t', real_moment t' /\ seconds_after 43200 t t') -> exists res, (d <- pt_date (ptime_of t us + 12 * HOUR) ;; res <- imply_ymd d (res_new (ptime_of t us) idx tx) ;;
        h <- pt_hours (ptime_of t us + 12 * HOUR) ;; mi <- pt_minutes (ptime_of t us + 12 * HOUR) ;;
        Ret (on_start (fun p => implyComponent "min" mi (implyComponent "hour" h p)) res)) = Ret res).
  { intros (t' & R' & (V & _ & _ & _ & E)). assert (H' : real_instant t' us) by (split; [exact R'|apply H]).
    assert (Ex : ptime_of t us + 12 * HOUR = ptime_of t' us).
    { unfold ptime_of, sec_count, dn_of, HOUR, DAY, SEC in *. lia. }
    rewrite Ex, pt_date_of by exact H'. cbn [bind]. destruct (Imp (mdate t') (res_new (ptime_of t us) idx tx) (proj1 R')) as [r' ->]. cbn [bind].
    rewrite pt_hours_of, pt_minutes_of by exact H'. cbn [bind]. eauto. }
  unfold deadline_rest, dwmy, deadline_date, deadline_time, add_days, add_weeks, add_years.
  Local Ltac fit F w k := let A := fresh "A" in pose proof (F w k eq_refl ltac:(cbn; tauto)) as A.
  assert (Z1 : forall k, ptime_of t us + k * 1 = ptime_of t us + k) by (intros; lia).
  destruct Iu as [<-|[<-|[<-|[<-|[<-|[<-|[<-|[<-|[<-|[<-|[<-|[<-|[<-|[<-|Iu]]]]]]]]]]]]]].
  15: { cbn in Iu. repeat (destruct Iu as [<-|Iu]; [finds; cbn [bind]; apply Clk; lia|]). contradiction. }
  1: fit F "day" UDay. 2: fit F "days" UDay. 3: fit F "week" UWeek. 4: fit F "weeks" UWeek. 5: fit F "month" UMonth. 6: fit F "months" UMonth.
  7: fit F "year" UYear. 8: fit F "years" UYear. 9: fit F "hour" UHour. 10: fit F "hours" UHour. 11: fit F "minute" UMinute. 12: fit F "minutes" UMinute.
  13: fit F "second" USecond. 14: fit F "seconds" USecond.
  all: finds; destruct q as [k|]; cbn [num_of f_whole negb fits deadline_target] in *.
  Local Ltac fin Days DaysN Mon MonN HalfDay Clk ClkN q := match goal with
    | A : exists c, real_date c /\ days_after (7 * _) _ _ |- _ => destruct A as (c & R & D); exact (DaysN 7 _ c (or_intror eq_refl) eq_refl R D)
    | A : exists c, real_date c /\ (months_after (12 * _) _ _ /\ _) |- _ => destruct A as (c & R & D & L); exact (MonN 12 _ c (or_intror eq_refl) eq_refl L R D)
    | A : exists c, real_date c /\ (months_after _ _ _ /\ _) |- _ => destruct A as (c & R & D & L);
        match type of D with months_after ?k _ _ => replace k with (1 * k) in D, L by lia end; destruct (MonN 1 _ c (or_introl eq_refl) eq_refl L R D) as [res X]; exists res; rewrite <- X; clear;
        destruct (f2int _); cbn [bind]; rewrite ?Z.mul_1_l; reflexivity
    | A : exists c, real_date c /\ days_after ?kk _ _ |- _ => is_var kk; destruct A as (c & R & D);
        replace kk with (1 * kk) in D by lia; destruct (DaysN 1 _ c (or_introl eq_refl) eq_refl R D) as [res X]; exists res; rewrite <- X; clear;
        destruct (f2long _); cbn [bind]; rewrite ?Z.mul_1_l; reflexivity
    | A : exists c, real_date c /\ days_after _ _ _ |- _ => destruct A as (c & R & D); exact (Days _ c R D)
    | A : exists c, real_date c /\ months_after _ _ _ |- _ => destruct A as (c & R & D); exact (Mon 6 c ltac:(lia) R D)
    | A : exists t', _ |- _ => exact (HalfDay A)
    | A : ?kk < _ |- _ => is_var kk; apply (ClkN kk); [reflexivity|exact A|unfold HOUR, MINUTE, SEC; lia]
    | A : True |- _ => cbn [bind]; apply Clk; unfold MINUTE, SEC; lia
    end.
  all: fin Days DaysN Mon MonN HalfDay Clk ClkN q.
Qed.

(** ** the spelled amount *)
Lemma spells_amount n q : spells n q -> amount_ok n q (deadline_amount gwords_init n).
Proof.
  intros S. destruct S as [w k I|w D N|a A|a sp A B N| |a sp A B N].
  - cbn in I. repeat (destruct I as [I|I]; [injection I as <- <-; split; [lia|left; vm_compute; reflexivity]|]). contradiction.
  - pose proof (decimal_bounds w D). split; [lia|].
    unfold deadline_amount, gw_find, gwords_init. rewrite digits_not_word by assumption. rewrite digits_not_article by exact D.
    rewrite (contains_lit_digits "f" (bs "ew")) by (auto; reflexivity). rewrite (contains_lit_digits "h" (bs "alf")) by (auto; reflexivity).
    rewrite stoi_digits by assumption. destruct (INT_MAX <? decimal w) eqn:E; [right; repeat split; auto; lia|left].
    replace (decimal w <? 0) with false by lia. reflexivity.
  - destruct A as [-> | ->]; (split; [lia|left; vm_compute; reflexivity]).
  - split; [lia|left]. apply article_few; assumption.
  - reflexivity.
  - apply half_article; assumption.
Qed.

(** ** recognition *)
Lemma set_digit c : is_digit c = true -> set_ok true false [CRange "0" "9"] c = true.
Proof. intros H. destruct c as [b0 b1 b2 b3 b4 b5 b6 b7]; destruct b0, b1, b2, b3, b4, b5, b6, b7; vm_compute in H |- *; congruence. Qed.
Lemma digits_run w : digits w -> Forall (fun c => set_ok true false [CRange "0" "9"] c = true) w.
Proof. apply Forall_impl. exact set_digit. Qed.
Lemma spells_lang n q : spells n q -> lang true dl_num n.
Proof.
  intros S. destruct S as [w k I|w D N|a A|a sp A B N| |a sp A B N].
  - cbn in I. repeat (destruct I as [I|I]; [injection I as <- <-; cbn [bs list_ascii_of_string]; in_lang|]). contradiction.
  - destruct w as [|c w]; [congruence|]. inversion D as [|? ? Hc Hw]; subst. apply set_digit in Hc. apply digits_run in Hw. in_lang.
  - destruct A as [-> | ->]; cbn [bs list_ascii_of_string]; in_lang.
  - destruct sp as [|c sp]; [congruence|]. inversion B as [|? ? Hc Hs]; subst. rewrite <- space_set in Hc. apply blank_run in Hs.
    destruct A as [-> | ->]; cbn [bs list_ascii_of_string app]; in_lang.
  - cbn [bs list_ascii_of_string]; in_lang.
  - destruct sp as [|c sp]; [congruence|]. inversion B as [|? ? Hc Hs]; subst. rewrite <- space_set in Hc. apply blank_run in Hs.
    destruct A as [-> | ->]; cbn [bs list_ascii_of_string app]; in_lang.
Qed.
Lemma unit_lang u : In u (map bs all_units) -> lang true dl_unit u.
Proof. intros I. unfold all_units in I. cbn in I. repeat (destruct I as [<-|I]; [cbn [bs list_ascii_of_string]; in_lang|]). contradiction. Qed.
Lemma kw_lang kw : kw = bs "in" \/ kw = bs "within" -> lang true dl_kw kw.
Proof. intros [-> | ->]; cbn [bs list_ascii_of_string]; in_lang. Qed.

(** a text that is exactly one phrase is one match, of the phrase's parts *)
Lemma deadline_search_whole kw s1 n s2 u q : (kw = bs "in" \/ kw = bs "within") -> blanks s1 -> s1 <> [] -> spells n q -> blanks s2 -> s2 <> [] -> In u (map bs all_units) ->
  low (kw ++ s1 ++ n ++ s2 ++ u) ->
  exists m, search true deadline_re (kw ++ s1 ++ n ++ s2 ++ u) = Some m /\ m_pos m = 0%nat /\ m_str m = kw ++ s1 ++ n ++ s2 ++ u /\ grp m 3 = n /\ grp m 4 = u.
Proof.
  intros K B1 N1 Sq B2 N2 Iu Lo. set (t := kw ++ s1 ++ n ++ s2 ++ u) in *.
  assert (M : starts_match true deadline_re None t).
  { exists (mkst (lastc u (lastc s2 (lastc n (lastc s1 (lastc kw None))))) [] [(5%nat, []); (4%nat, u); (3%nat, n); (2%nat, kw); (1%nat, [])]).
    exists (mkst None t [(1%nat, [])]). split.
    { apply mt_WB_intro. unfold wb_at, t. destruct K as [-> | ->]; reflexivity. }
    exists (mkst (lastc kw None) (s1 ++ n ++ s2 ++ u) [(2%nat, kw); (1%nat, [])]). split.
    { apply mt_grp; [reflexivity|apply kw_lang; exact K]. }
    exists (mkst (lastc s1 (lastc kw None)) (n ++ s2 ++ u) [(2%nat, kw); (1%nat, [])]). split.
    { apply plain_mt; [reflexivity|apply blanks_SPp; assumption]. }
    exists (mkst (lastc n (lastc s1 (lastc kw None))) (s2 ++ u) [(3%nat, n); (2%nat, kw); (1%nat, [])]). split.
    { apply mt_grp; [reflexivity|eapply spells_lang; exact Sq]. }
    exists (mkst (lastc s2 (lastc n (lastc s1 (lastc kw None)))) u [(3%nat, n); (2%nat, kw); (1%nat, [])]). split.
    { apply plain_mt; [reflexivity|apply blanks_SPp; assumption]. }
    exists (mkst (lastc u (lastc s2 (lastc n (lastc s1 (lastc kw None))))) [] [(4%nat, u); (3%nat, n); (2%nat, kw); (1%nat, [])]). split.
    { rewrite <- (app_nil_r u) at 1. apply mt_grp; [reflexivity|apply unit_lang; exact Iu]. }
    apply mt_WB_intro. unfold wb_at. destruct (unit_solid u Iu) as (_ & Nu & Wu). destruct u as [|x u'] using rev_ind; [congruence|].
    rewrite lastc_app. cbn. apply Forall_app in Wu as [_ Wu]. inversion Wu as [|? ? Wx _]; subst. rewrite Wx. reflexivity. }
  destruct (search_complete true deadline_re t [] t eq_refl M) as (m & S & P). cbn in P.
  destruct (deadline_wb _ _ S) as (pre & post & kw' & s1' & n' & s2' & u' & E & Hp & Em & Lk & B1' & N1' & Ln & B2' & N2' & Lu & G3 & G4 & W).
  assert (pre = []) by (destruct pre; [reflexivity|cbn in Hp; lia]). subst pre. cbn [app] in E.
  assert (Lo' : low (kw' ++ s1' ++ n' ++ s2' ++ u')). { rewrite <- Em. rewrite E in Lo. apply low_app in Lo. apply Lo. }
  apply low_app in Lo' as [Lok Lo']. apply low_app in Lo' as [_ Lo']. apply low_app in Lo' as [Lon Lo']. apply low_app in Lo' as [_ Lou].
  destruct (deadline_amount_spec n' Lon Ln) as (q' & Sq' & _).
  rewrite Em in E. rewrite <- !app_assoc in E. unfold t in E. symmetry in E.
  destruct (phrase_unique kw s1 n s2 u q kw' s1' n' s2' u' q' post K B1 N1 Sq B2 N2 Iu (kw_words _ Lok Lk) B1' N1' Sq' B2' N2' (deadline_unit _ Lou Lu) W E)
    as (-> & -> & -> & -> & -> & ->).
  exists m. repeat split; [exact S|lia|exact Em|exact G3|exact G4].
Qed.

Lemma said_possible t us n u q res : real_instant t us -> In u (map bs all_units) -> deadline_said t n u q res -> hasPossibleDates res = true.
Proof.
  intros H Iu (_ & F & A). pose proof (proj1 (proj1 H)) as Rt.
  unfold all_units in Iu. rewrite map_app in Iu. apply in_app_or in Iu as [Iu|Iu].
  - apply in_map_iff in Iu as (w & <- & Iw). apply in_map_iff in Iw as ([w' k] & E & Ik). cbn in E. subst w'.
    specialize (F w k eq_refl Ik). assert (G : exists c, real_date c /\ date_implied (r_start res) c); [|destruct G as (c & R & D); eapply date_implied_possible; eassumption].
    destruct k, q; cbn [deadline_means] in F;
    first [ solve [destruct F as (c & _ & R & D & _); exists c; split; assumption]
          | solve [destruct F as (t' & R & _ & D & _); exists (mdate t'); split; [apply R|exact D]]
          | solve [destruct F as (s & _ & _ & D & _); exists (mdate t); split; assumption]].
  - destruct (A Iu) as [D _]. eapply date_implied_possible; eassumption.
Qed.
