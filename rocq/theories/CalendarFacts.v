(** * CalendarFacts: Boost's dates, generators and times against Spec.v *)
From Verif Require Import Base Calendar Spec CalendarCycle.
From Coq Require Import ZifyBool ZifyNat ZifyN.
Ltac Zify.zify_post_hook ::= Z.div_mod_to_equations.

(** ** Dates inside Boost's range *)
Definition dn_of (c : cal) : date := rd c + JDN0.

Definition LO : Z := 2232400.
Definition HI : Z := 5373484.
Lemma LO_eq : LO = dn_of (Cal 1400 1 1). Proof. reflexivity. Qed.
Lemma HI_eq : HI = dn_of (Cal 9999 12 31). Proof. reflexivity. Qed.

Lemma rd_le_year c : valid c -> days_before_year (cy c) < rd c <= days_before_year (cy c + 1).
Proof.
  destruct c as [y m d]; unfold valid, rd; cbn [cy cm cd]. intros [Hm Hd].
  pose proof (dbm_upper y m d Hm Hd). rewrite dby_succ. lia.
Qed.

Lemma dby_le y y' : y <= y' -> days_before_year y <= days_before_year y'.
Proof.
  intros H. destruct (Z.eq_dec y y') as [->|Hne]; [lia|].
  pose proof (dby_mono y y'). destruct (is_leap y); lia.
Qed.

Lemma in_range_iff c : valid c -> (in_range_year c <-> LO <= dn_of c <= HI).
Proof.
  intros V. pose proof (rd_le_year c V) as R. unfold in_range_year, dn_of, LO, HI, JDN0.
  change 2232400 with (days_before_year 1400 + 1 + 1721425).
  change 5373484 with (days_before_year 10000 + 1721425).
  split.
  - intros H. pose proof (dby_le 1400 (cy c)). pose proof (dby_le (cy c + 1) 10000). lia.
  - intros H.
    assert (~ cy c < 1400) by (intros ?; pose proof (dby_le (cy c + 1) 1400); lia).
    assert (~ 10000 <= cy c) by (intros ?; pose proof (dby_le 10000 (cy c)); lia).
    lia.
Qed.

Lemma real_range c : real_date c -> LO <= dn_of c <= HI.
Proof. intros [V R]. apply in_range_iff; assumption. Qed.

Lemma mk_date_real c : real_date c -> mk_date (cy c) (cm c) (cd c) = Ret (dn_of c).
Proof.
  intros [[Hm Hd] R]. unfold in_range_year in R. unfold mk_date. rewrite eom_spec by lia.
  replace (_ && _) with true by lia. unfold dn_of. rewrite day_number_spec by lia.
  destruct c; reflexivity.
Qed.

Lemma mk_date_inv y m d dn : mk_date y m d = Ret dn -> real_date (Cal y m d) /\ dn = dn_of (Cal y m d).
Proof.
  unfold mk_date. destruct (_ && _) eqn:E; [|discriminate]. intros H. injection H as <-.
  assert (Hm : 1 <= m <= 12) by lia. rewrite eom_spec in E by exact Hm.
  rewrite day_number_spec by exact Hm.
  unfold real_date, valid, in_range_year; cbn [cy cm cd]. split; [lia|reflexivity].
Qed.

Lemma mk_date_bad y m d : ~ real_date (Cal y m d) -> mk_date y m d = Throw OutOfRange.
Proof.
  intros N. unfold mk_date. destruct (_ && _) eqn:E; [|reflexivity]. exfalso. apply N.
  assert (Hm : 1 <= m <= 12) by lia. rewrite eom_spec in E by exact Hm.
  unfold real_date, valid, in_range_year; cbn [cy cm cd]. lia.
Qed.

Lemma ymd_real c : real_date c -> ymd (dn_of c) = Ret (cy c, cm c, cd c).
Proof.
  intros H. pose proof (real_range c H) as R. destruct H as [V Y]. unfold LO, HI in R. unfold ymd.
  replace ((0 <=? dn_of c) && (dn_of c <? 20000000)) with true by lia.
  unfold dn_of in *. rewrite from_day_number_rd by (try exact V; lia).
  unfold in_range_year in Y. replace (_ && _) with true by lia. reflexivity.
Qed.

Lemma ymd_inv dn y m d : ymd dn = Ret (y, m, d) -> real_date (Cal y m d) /\ dn = dn_of (Cal y m d).
Proof.
  unfold ymd. destruct (_ && _) eqn:E; [|discriminate].
  pose proof (from_day_number_sound dn) as S. destruct (from_day_number dn) as [[y' m'] d'].
  destruct ((1400 <=? y') && (y' <=? 9999)) eqn:E2; [|discriminate]. intros H; injection H as -> -> ->.
  destruct S as [V R]; [lia|]. split; [split; [exact V|unfold in_range_year; cbn [cy]; lia]|unfold dn_of; lia].
Qed.

(** every day number in range is a real date *)
Lemma dn_real dn : LO <= dn <= HI -> exists c, real_date c /\ dn = dn_of c.
Proof.
  intros H. unfold LO, HI in H. pose proof (from_day_number_sound dn) as S.
  destruct (from_day_number dn) as [[y m] d]. destruct S as [V R]; [lia|].
  exists (Cal y m d). assert (E : dn = dn_of (Cal y m d)) by (unfold dn_of; lia).
  split; [|exact E]. split; [exact V|]. apply in_range_iff; [exact V|]. unfold LO, HI. lia.
Qed.

(** the date [n] days after [c] *)
Lemma days_after_real n c : valid c -> LO <= dn_of c + n <= HI ->
  exists c', real_date c' /\ days_after n c c' /\ dn_of c' = dn_of c + n.
Proof.
  intros V H. destruct (dn_real _ H) as (c' & R & E). exists c'. split; [exact R|].
  split; [|lia]. split; [apply R|unfold dn_of in E; lia].
Qed.

Lemma days_after_dn n c c' : days_after n c c' -> dn_of c' = dn_of c + n.
Proof. intros [_ E]. unfold dn_of. lia. Qed.

Lemma d_year_real c : real_date c -> d_year (dn_of c) = Ret (cy c).
Proof. intros H. unfold d_year. rewrite ymd_real by exact H. reflexivity. Qed.
Lemma d_month_real c : real_date c -> d_month (dn_of c) = Ret (cm c).
Proof. intros H. unfold d_month. rewrite ymd_real by exact H. reflexivity. Qed.
Lemma d_day_real c : real_date c -> d_day (dn_of c) = Ret (cd c).
Proof. intros H. unfold d_day. rewrite ymd_real by exact H. reflexivity. Qed.
Lemma d_dow_real c : real_date c -> d_dow (dn_of c) = Ret (weekday c).
Proof.
  intros H. unfold d_dow. rewrite ymd_real by exact H. cbn [bind]. rewrite dow_spec by apply H. destruct c; reflexivity.
Qed.

Lemma weekday_dn c : weekday c = (dn_of c + 1) mod 7.
Proof. unfold weekday, dn_of, JDN0. lia. Qed.

Lemma d_dow_dn dn : LO <= dn <= HI -> d_dow dn = Ret ((dn + 1) mod 7).
Proof.
  intros H. destruct (dn_real dn H) as (c & R & ->). rewrite d_dow_real by exact R. rewrite weekday_dn. reflexivity.
Qed.

Lemma ymd_out dn : 0 <= dn < 20000000 -> ~ (LO <= dn <= HI) -> ymd dn = Throw OutOfRange.
Proof.
  intros H N. unfold ymd. replace ((0 <=? dn) && (dn <? 20000000)) with true by lia.
  pose proof (from_day_number_sound dn) as S. destruct (from_day_number dn) as [[y m] d].
  destruct S as [V R]; [lia|].
  destruct ((1400 <=? y) && (y <=? 9999)) eqn:E; [|reflexivity]. exfalso. apply N.
  replace dn with (dn_of (Cal y m d)) by (unfold dn_of; lia). apply in_range_iff; [exact V|].
  unfold in_range_year; cbn [cy]. lia.
Qed.

(** ** Months *)
Definition shift_months (c : cal) (n : Z) : cal :=
  let tot := 12 * cy c + (cm c - 1) + n in
  let y := tot / 12 in
  let m := tot mod 12 + 1 in
  Cal y m (if cd c =? month_len (cy c) (cm c) then month_len y m else Z.min (cd c) (month_len y m)).

Lemma shift_months_spec c n : months_after n c (shift_months c n).
Proof. unfold months_after, shift_months; cbn [cy cm cd]. split; [lia|]. split; [lia|reflexivity]. Qed.

Lemma months_after_fun n c c' : months_after n c c' -> c' = shift_months c n.
Proof.
  destruct c' as [y m d]. unfold months_after, shift_months; cbn [cy cm cd]. intros (E & Hm & ->).
  assert (Ey : y = (12 * cy c + (cm c - 1) + n) / 12) by lia.
  assert (Em : m = (12 * cy c + (cm c - 1) + n) mod 12 + 1) by lia.
  rewrite <- Ey, <- Em. reflexivity.
Qed.

Lemma shift_months_valid c n : valid c -> valid (shift_months c n).
Proof.
  intros [Hm Hd]. destruct (shift_months_spec c n) as (E & Hm' & Ed).
  pose proof (month_len_bounds (cy (shift_months c n)) (cm (shift_months c n)) Hm').
  pose proof (month_len_bounds (cy c) (cm c) Hm).
  split; [exact Hm'|]. rewrite Ed. destruct (_ =? _); lia.
Qed.

Lemma add_months_real c n : real_date c -> -32767 <= n <= 32767 -> in_range_year (shift_months c n) ->
  add_months (dn_of c) n = Ret (dn_of (shift_months c n)).
Proof.
  intros R Hn R'. unfold add_months. rewrite ymd_real by exact R. cbn [bind].
  replace ((n <? -32767) || (32767 <? n)) with false by lia.
  pose proof (shift_months_valid c n (proj1 R)) as V.
  assert (Ey : cy c + (cm c - 1 + n) / 12 = cy (shift_months c n)) by (unfold shift_months; cbn [cy]; lia).
  assert (Em : (cm c - 1 + n) mod 12 + 1 = cm (shift_months c n)) by (unfold shift_months; cbn [cm]; lia).
  cbv zeta. rewrite Ey, Em.
  rewrite !eom_spec by (first [apply V|apply R]).
  destruct (shift_months_spec c n) as (_ & _ & Ed). rewrite <- Ed.
  apply mk_date_real. split; assumption.
Qed.

Lemma add_months_out c n : real_date c -> -32767 <= n <= 32767 -> ~ in_range_year (shift_months c n) ->
  add_months (dn_of c) n = Throw OutOfRange.
Proof.
  intros R Hn R'. unfold add_months. rewrite ymd_real by exact R. cbn [bind].
  replace ((n <? -32767) || (32767 <? n)) with false by lia.
  apply mk_date_bad. intros [_ Y]. apply R'. unfold in_range_year in *. cbn [cy] in *.
  unfold shift_months; cbn [cy]. replace ((12 * cy c + (cm c - 1) + n) / 12) with (cy c + (cm c - 1 + n) / 12) by lia. exact Y.
Qed.

(** ** Weekday generators *)
Lemma dow_walk_spec step w (Hw : 0 <= w < 7) : step = 1 \/ step = -1 -> forall n dn,
  (forall i, 0 <= i < Z.of_nat n -> LO <= dn + step * i <= HI) ->
  (exists i, 0 <= i < Z.of_nat n /\ (dn + step * i + 1) mod 7 = w) ->
  exists i, 0 <= i < Z.of_nat n /\ (dn + step * i + 1) mod 7 = w /\
            (forall j, 0 <= j < i -> (dn + step * j + 1) mod 7 <> w) /\
            dow_walk n step w dn = Ret (dn + step * i).
Proof.
  intros Hs. induction n as [|n IH]; intros dn Hr (i & Hi & Ei); [lia|].
  cbn [dow_walk]. rewrite d_dow_dn by (specialize (Hr 0); lia). cbn [bind].
  destruct (_ =? w) eqn:E.
  - exists 0. split; [lia|]. split; [replace (dn + step * 0) with dn by lia; lia|]. split; [lia|].
    f_equal; lia.
  - assert (Hne : i <> 0) by (intros ->; replace (dn + step * 0) with dn in Ei by lia; lia).
    destruct (IH (dn + step)) as (k & Hk & Ek & Hmin & Ew).
    + intros j Hj. specialize (Hr (j + 1)). lia.
    + exists (i - 1). split; [lia|]. replace (dn + step + step * (i - 1) + 1) with (dn + step * i + 1) by lia. exact Ei.
    + exists (k + 1). split; [lia|].
      replace (dn + step * (k + 1) + 1) with (dn + step + step * k + 1) by lia.
      split; [exact Ek|]. split.
      * intros j Hj. destruct (Z.eq_dec j 0) as [->|?].
        { replace (dn + step * 0) with dn by lia. lia. }
        { specialize (Hmin (j - 1)). replace (dn + step + step * (j - 1) + 1) with (dn + step * j + 1) in Hmin by lia.
          apply Hmin. lia. }
      * rewrite Ew. f_equal. lia.
Qed.

Lemma some_weekday step w dn : 0 <= w < 7 -> step = 1 \/ step = -1 ->
  exists i, 0 <= i < 7 /\ (dn + step * i + 1) mod 7 = w.
Proof.
  intros Hw [-> | ->].
  - exists ((w - (dn + 1)) mod 7). lia.
  - exists ((dn + 1 - w) mod 7). lia.
Qed.

(** strictly after / before, within a week *)
Lemma first_after_spec w dn : 0 <= w < 7 -> LO <= dn + 1 -> dn + 7 <= HI ->
  exists k, first_dow_after w dn = Ret (dn + k) /\ 1 <= k <= 7 /\ (dn + k + 1) mod 7 = w.
Proof.
  intros Hw H1 H2. unfold first_dow_after.
  destruct (dow_walk_spec 1 w Hw (or_introl eq_refl) 7 (dn + 1)) as (i & Hi & Ei & _ & Ew).
  - intros i Hi. lia.
  - destruct (some_weekday 1 w (dn + 1) Hw) as (i & Hi & Ei); [lia|]. exists i. split; [lia|exact Ei].
  - exists (i + 1). rewrite Ew. split; [f_equal; lia|]. split; [lia|].
    replace (dn + (i + 1) + 1) with (dn + 1 + 1 * i + 1) by lia. exact Ei.
Qed.

Lemma first_before_spec w dn : 0 <= w < 7 -> LO <= dn - 7 -> dn - 1 <= HI ->
  exists k, first_dow_before w dn = Ret (dn - k) /\ 1 <= k <= 7 /\ (dn - k + 1) mod 7 = w.
Proof.
  intros Hw H1 H2. unfold first_dow_before.
  destruct (dow_walk_spec (-1) w Hw (or_intror eq_refl) 7 (dn - 1)) as (i & Hi & Ei & _ & Ew).
  - intros i Hi. lia.
  - destruct (some_weekday (-1) w (dn - 1) Hw) as (i & Hi & Ei); [lia|]. exists i. split; [lia|exact Ei].
  - exists (i + 1). rewrite Ew. split; [f_equal; lia|]. split; [lia|].
    replace (dn - (i + 1) + 1) with (dn - 1 + -1 * i + 1) by lia. exact Ei.
Qed.

Lemma rd_day y m d d' : rd (Cal y m d') = rd (Cal y m d) + (d' - d).
Proof. unfold rd; cbn [cy cm cd]. lia. Qed.

Lemma nth_dow_spec n w y m : 1 <= n <= 4 -> 0 <= w < 7 -> 1400 <= y <= 9999 -> 1 <= m <= 12 ->
  exists d, nth_dow_in_month n w m y = Ret (dn_of (Cal y m d)) /\ nth_weekday n w y m d.
Proof.
  intros Hn Hw Hy Hm. unfold nth_dow_in_month.
  pose proof (month_len_bounds y m Hm) as ML.
  assert (R1 : forall d, 1 <= d <= month_len y m -> real_date (Cal y m d)).
  { intros d Hd. unfold real_date, valid, in_range_year; cbn [cy cm cd]. lia. }
  change (mk_date y m 1) with (mk_date (cy (Cal y m 1)) (cm (Cal y m 1)) (cd (Cal y m 1))).
  rewrite mk_date_real by (apply R1; lia). cbn [bind].
  destruct (dow_walk_spec 1 w Hw (or_introl eq_refl) 7 (dn_of (Cal y m 1))) as (i & Hi & Ei & _ & Ew).
  { intros i Hi. replace (dn_of (Cal y m 1) + 1 * i) with (dn_of (Cal y m (1 + i))) by (unfold dn_of; rewrite (rd_day y m 1 (1+i)); lia).
    apply real_range, R1. lia. }
  { destruct (some_weekday 1 w (dn_of (Cal y m 1)) Hw) as (i & Hi & Ei); [lia|]. exists i. split; [lia|exact Ei]. }
  rewrite Ew. cbn [bind].
  set (d := 1 + i + 7 * (n - 1)).
  replace (dn_of (Cal y m 1) + 1 * i + 7 * (n - 1)) with (dn_of (Cal y m d)) by (unfold dn_of; rewrite (rd_day y m 1 d); unfold d; lia).
  assert (Hd : 1 <= d <= month_len y m) by (unfold d; lia).
  rewrite d_month_real by (apply R1; exact Hd). cbn [bind cm]. rewrite Z.eqb_refl.
  exists d. split; [reflexivity|]. split; [apply R1; exact Hd|]. split; [|unfold d; lia].
  rewrite weekday_dn. unfold dn_of in *. rewrite (rd_day y m 1 d). unfold d. lia.
Qed.

Lemma last_dow_spec w y m : 0 <= w < 7 -> 1400 <= y <= 9999 -> 1 <= m <= 12 ->
  exists d, last_dow_in_month w m y = Ret (dn_of (Cal y m d)) /\ last_weekday w y m d.
Proof.
  intros Hw Hy Hm. unfold last_dow_in_month.
  pose proof (month_len_bounds y m Hm) as ML. rewrite eom_spec by exact Hm.
  set (L := month_len y m) in *.
  assert (R1 : forall d, 1 <= d <= L -> real_date (Cal y m d)).
  { intros d Hd. unfold real_date, valid, in_range_year; cbn [cy cm cd]. fold L. lia. }
  change (mk_date y m L) with (mk_date (cy (Cal y m L)) (cm (Cal y m L)) (cd (Cal y m L))).
  rewrite mk_date_real by (apply R1; lia). cbn [bind].
  destruct (dow_walk_spec (-1) w Hw (or_intror eq_refl) 7 (dn_of (Cal y m L))) as (i & Hi & Ei & _ & Ew).
  { intros i Hi. replace (dn_of (Cal y m L) + -1 * i) with (dn_of (Cal y m (L - i))) by (unfold dn_of; rewrite (rd_day y m L (L - i)); lia).
    apply real_range, R1. lia. }
  { destruct (some_weekday (-1) w (dn_of (Cal y m L)) Hw) as (i & Hi & Ei); [lia|]. exists i. split; [lia|exact Ei]. }
  rewrite Ew. exists (L - i).
  replace (dn_of (Cal y m L) + -1 * i) with (dn_of (Cal y m (L - i))) by (unfold dn_of; rewrite (rd_day y m L (L - i)); lia).
  split; [reflexivity|]. split; [apply R1; lia|]. split; [|fold L; lia].
  rewrite weekday_dn. unfold dn_of in *. rewrite (rd_day y m L (L - i)). lia.
Qed.

(** the specification determines the day *)
Lemma nth_weekday_unique n w y m d d' : nth_weekday n w y m d -> nth_weekday n w y m d' -> d = d'.
Proof.
  intros (_ & W & R) (_ & W' & R'). rewrite <- W' in W. unfold weekday in W. rewrite (rd_day y m d' d) in W. lia.
Qed.
Lemma last_weekday_unique w y m d d' : last_weekday w y m d -> last_weekday w y m d' -> d = d'.
Proof.
  intros ([_ V] & W & R) ([_ V'] & W' & R'). rewrite <- W' in W. unfold weekday in W. rewrite (rd_day y m d' d) in W.
  cbn [cy cm cd] in *. lia.
Qed.

(** ** Moments *)
(** The ptime of a moment, with [us] microseconds. *)
Definition ptime_of (t : moment) (us : Z) : ptime :=
  dn_of (mdate t) * DAY + (3600 * mhour t + 60 * mmin t + msec t) * SEC + us.

Definition real_instant (t : moment) (us : Z) : Prop := real_moment t /\ 0 <= us < SEC.

Lemma pt_daynum_of t us : real_instant t us -> pt_daynum (ptime_of t us) = dn_of (mdate t).
Proof. intros [(_ & H1 & H2 & H3) Hu]. unfold pt_daynum, ptime_of, DAY, SEC in *. lia. Qed.

Lemma pt_date_of t us : real_instant t us -> pt_date (ptime_of t us) = Ret (dn_of (mdate t)).
Proof.
  intros H. unfold pt_date. rewrite pt_daynum_of by exact H.
  rewrite ymd_real by apply H. reflexivity.
Qed.

Lemma pt_tod_of t us : real_instant t us ->
  pt_tod (ptime_of t us) = Ret ((3600 * mhour t + 60 * mmin t + msec t) * SEC + us).
Proof.
  intros [(R & H1 & H2 & H3) Hu]. pose proof (real_range _ R) as RR. unfold pt_tod, ptime_of, DAY, SEC, LO in *.
  replace (0 <=? _) with true by lia. f_equal. lia.
Qed.

Lemma pt_hours_of t us : real_instant t us -> pt_hours (ptime_of t us) = Ret (mhour t).
Proof.
  intros H. unfold pt_hours. rewrite pt_tod_of by exact H. cbn [bind].
  destruct H as [(R & H1 & H2 & H3) Hu]. unfold HOUR, SEC in *. f_equal. lia.
Qed.
Lemma pt_minutes_of t us : real_instant t us -> pt_minutes (ptime_of t us) = Ret (mmin t).
Proof.
  intros H. unfold pt_minutes. rewrite pt_tod_of by exact H. cbn [bind].
  destruct H as [(R & H1 & H2 & H3) Hu]. unfold MINUTE, SEC in *. f_equal. lia.
Qed.
Lemma pt_seconds_of t us : real_instant t us -> pt_seconds (ptime_of t us) = Ret (msec t).
Proof.
  intros H. unfold pt_seconds. rewrite pt_tod_of by exact H. cbn [bind].
  destruct H as [(R & H1 & H2 & H3) Hu]. unfold SEC in *. f_equal. lia.
Qed.

(** Every point of time in Boost's range is an instant of the specification. *)
Lemma ptime_is_instant p : LO * DAY <= p < (HI + 1) * DAY ->
  exists t us, real_instant t us /\ p = ptime_of t us.
Proof.
  intros H.
  assert (H' : LO <= p / DAY <= HI) by (unfold DAY, SEC in *; lia).
  destruct (dn_real _ H') as (c & R & E).
  exists (Moment c ((p mod DAY) / HOUR) ((p mod DAY) / MINUTE mod 60) ((p mod DAY) / SEC mod 60)), (p mod SEC).
  unfold real_instant, real_moment, ptime_of; cbn [mdate mhour mmin msec].
  rewrite <- E. unfold DAY, HOUR, MINUTE, SEC in *. split; [split; [split; [exact R|lia]|lia]|lia].
Qed.

(** whole-day shifts *)
Lemma ptime_shift_days t us n c' : real_instant t us -> real_date c' -> days_after n (mdate t) c' ->
  ptime_of t us + n * DAY = ptime_of (Moment c' (mhour t) (mmin t) (msec t)) us /\
  real_instant (Moment c' (mhour t) (mmin t) (msec t)) us.
Proof.
  intros [(R & H1 & H2 & H3) Hu] R' D. split.
  - unfold ptime_of; cbn [mdate mhour mmin msec]. rewrite (days_after_dn _ _ _ D). lia.
  - unfold real_instant, real_moment; cbn [mdate mhour mmin msec]. auto.
Qed.

(** shifts by a number of seconds *)
Lemma ptime_shift_secs t us n t' : real_instant t us -> real_date (mdate t') -> seconds_after n t t' ->
  ptime_of t us + n * SEC = ptime_of t' us /\ real_instant t' us.
Proof.
  intros [(R & H1 & H2 & H3) Hu] R' (V & A & B & C & E). split.
  - unfold ptime_of, sec_count, dn_of, DAY, SEC in *. lia.
  - unfold real_instant, real_moment. auto.
Qed.

Lemma ptime_of_range t us : real_instant t us -> LO * DAY <= ptime_of t us < (HI + 1) * DAY.
Proof.
  intros [(R & H1 & H2 & H3) Hu]. pose proof (real_range _ R). unfold ptime_of, DAY, SEC in *. lia.
Qed.
