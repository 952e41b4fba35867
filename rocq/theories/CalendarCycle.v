(** * CalendarCycle: Boost's day-number algorithms compute the calendar of Spec.v *)
From Verif Require Import Base Calendar Spec.
From Coq Require Import ZifyBool ZifyNat ZifyN.
Ltac Zify.zify_post_hook ::= Z.div_mod_to_equations.

(** Computes month-indexed table look-ups, leaving [is_leap] and arithmetic alone. *)
Ltac cal_cbn :=
  repeat match goal with
  | |- context[Z.to_nat (?k - 1)] =>
      let v := eval vm_compute in (Z.to_nat (k - 1)) in change (Z.to_nat (k - 1)) with v
  end;
  cbn -[is_leap Z.add Z.sub Z.mul Z.div Z.modulo Z.to_nat].

(** ** The specification's own sanity *)

Lemma month_cases m : 1 <= m <= 12 ->
  m = 1 \/ m = 2 \/ m = 3 \/ m = 4 \/ m = 5 \/ m = 6 \/ m = 7 \/ m = 8 \/ m = 9 \/ m = 10 \/ m = 11 \/ m = 12.
Proof. lia. Qed.

Ltac by_month H :=
  apply month_cases in H;
  destruct H as [->|[->|[->|[->|[->|[->|[->|[->|[->|[->|[->| ->]]]]]]]]]]].

Lemma month_len_bounds y m : 1 <= m <= 12 -> 28 <= month_len y m <= 31.
Proof. intros H. by_month H; unfold month_len; cal_cbn; destruct (is_leap y); lia. Qed.

Lemma dbm_eq y m : 1 <= m <= 12 ->
  days_before_month y m =
  nth (Z.to_nat (m-1)) [0; 31; 59; 90; 120; 151; 181; 212; 243; 273; 304; 334] 0
  + (if (2 <? m) && is_leap y then 1 else 0).
Proof. intros H. by_month H; unfold days_before_month; cal_cbn; destruct (is_leap y); reflexivity. Qed.

Lemma dby_succ y : days_before_year (y + 1) = days_before_year y + (if is_leap y then 366 else 365).
Proof.
  unfold days_before_year, is_leap.
  replace (y + 1 - 1) with y by lia.
  destruct (y mod 400 =? 0) eqn:E1; [|destruct (y mod 100 =? 0) eqn:E2; [|destruct (y mod 4 =? 0) eqn:E3]]; lia.
Qed.

Lemma dbm_succ y m : 1 <= m <= 11 -> days_before_month y (m + 1) = days_before_month y m + month_len y m.
Proof.
  intros H. assert (H' : 1 <= m <= 12) by lia. by_month H'; try lia;
  unfold days_before_month, month_len; cal_cbn; destruct (is_leap y); reflexivity.
Qed.

Lemma dbm_12 y : days_before_month y 12 + month_len y 12 = if is_leap y then 366 else 365.
Proof. unfold days_before_month, month_len; cal_cbn; destruct (is_leap y); reflexivity. Qed.

Lemma valid_next_day c : valid c -> valid (next_day c).
Proof.
  destruct c as [y m d]; unfold valid, next_day; cbn [cy cm cd]; intros [Hm Hd].
  destruct (d <? month_len y m) eqn:E1; cbn [cy cm cd]; [lia|].
  destruct (m <? 12) eqn:E2; cbn [cy cm cd].
  - assert (28 <= month_len y (m+1) <= 31) by (apply month_len_bounds; lia). lia.
  - assert (28 <= month_len (y+1) 1 <= 31) by (apply month_len_bounds; lia). lia.
Qed.

Lemma rd_next_day c : valid c -> rd (next_day c) = rd c + 1.
Proof.
  destruct c as [y m d]; unfold valid, next_day, rd; cbn [cy cm cd]; intros [Hm Hd].
  destruct (d <? month_len y m) eqn:E1; cbn [cy cm cd]; [lia|].
  destruct (m <? 12) eqn:E2; cbn [cy cm cd].
  - rewrite dbm_succ by lia. lia.
  - assert (m = 12) by lia. subst m. rewrite dby_succ.
    pose proof (dbm_12 y). change (days_before_month (y+1) 1) with 0. lia.
Qed.

Lemma rd_first : rd (Cal 1 1 1) = 1.
Proof. reflexivity. Qed.

Lemma dbm_upper y m d : 1 <= m <= 12 -> 1 <= d <= month_len y m ->
  0 < days_before_month y m + d <= (if is_leap y then 366 else 365).
Proof.
  intros H. by_month H; unfold days_before_month, month_len; cal_cbn; destruct (is_leap y); lia.
Qed.

Lemma dby_mono y y' : y < y' -> days_before_year y + (if is_leap y then 366 else 365) <= days_before_year y'.
Proof.
  intros H. rewrite <- dby_succ. unfold days_before_year. lia.
Qed.

Lemma dbm_mono y m m' : 1 <= m -> m < m' -> m' <= 12 ->
  days_before_month y m + month_len y m <= days_before_month y m'.
Proof.
  intros H1 H2 H3. rewrite <- dbm_succ by lia.
  assert (Hm : 1 <= m + 1 <= 12) by lia. assert (Hm' : 1 <= m' <= 12) by lia.
  rewrite !dbm_eq by lia.
  by_month Hm'; try lia;
  (assert (Hc : m + 1 = 1 \/ m + 1 = 2 \/ m + 1 = 3 \/ m + 1 = 4 \/ m + 1 = 5 \/ m + 1 = 6 \/ m + 1 = 7 \/ m + 1 = 8 \/ m + 1 = 9
     \/ m + 1 = 10 \/ m + 1 = 11 \/ m + 1 = 12) by lia;
   decompose [or] Hc; try lia;
   match goal with E : m + 1 = _ |- _ => rewrite E end; cal_cbn; destruct (is_leap y); lia).
Qed.

(** The day count orders dates, hence determines them. *)
Lemma rd_lt c c' : valid c -> valid c' ->
  (cy c < cy c' \/ (cy c = cy c' /\ (cm c < cm c' \/ (cm c = cm c' /\ cd c < cd c')))) -> rd c < rd c'.
Proof.
  destruct c as [y m d], c' as [y' m' d']; unfold valid, rd; cbn [cy cm cd].
  intros [Hm Hd] [Hm' Hd'] [H|[-> [H|[-> H]]]].
  - pose proof (dby_mono y y' H). pose proof (dbm_upper y m d Hm Hd). pose proof (dbm_upper y' m' d' Hm' Hd'). lia.
  - pose proof (dbm_mono y' m m'). lia.
  - lia.
Qed.

Lemma rd_inj c c' : valid c -> valid c' -> rd c = rd c' -> c = c'.
Proof.
  intros H H' E.
  destruct c as [y m d], c' as [y' m' d'].
  assert (D : y = y' /\ m = m' /\ d = d' \/ rd (Cal y m d) < rd (Cal y' m' d') \/ rd (Cal y' m' d') < rd (Cal y m d)).
  { destruct (Z.lt_trichotomy y y') as [?|[?|?]].
    - right; left; apply rd_lt; cbn; auto.
    - destruct (Z.lt_trichotomy m m') as [?|[?|?]].
      + right; left; apply rd_lt; cbn; auto.
      + destruct (Z.lt_trichotomy d d') as [?|[?|?]].
        * right; left; apply rd_lt; cbn; auto.
        * left; auto.
        * right; right; apply rd_lt; cbn; auto.
      + right; right; apply rd_lt; cbn; auto.
    - right; right; apply rd_lt; cbn; auto. }
  destruct D as [(-> & -> & ->)|[D|D]]; [reflexivity|lia|lia].
Qed.

(** ** Boost's functions *)
Definition JDN0 : Z := 1721425.

Lemma b_leap_spec y : b_leap y = is_leap y.
Proof.
  unfold b_leap, is_leap.
  destruct (y mod 400 =? 0) eqn:E1; destruct (y mod 100 =? 0) eqn:E2; destruct (y mod 4 =? 0) eqn:E3; cbn; try reflexivity; lia.
Qed.

Lemma eom_spec y m : 1 <= m <= 12 -> end_of_month_day y m = month_len y m.
Proof.
  intros H. unfold end_of_month_day. rewrite b_leap_spec. by_month H; unfold month_len; cal_cbn; destruct (is_leap y); reflexivity.
Qed.

Lemma day_number_spec y m d : 1 <= m <= 12 -> day_number y m d = rd (Cal y m d) + JDN0.
Proof.
  intros H. unfold day_number, rd, JDN0, days_before_year; cbn [cy cm cd]. rewrite dbm_eq by lia.
  unfold is_leap. by_month H; cal_cbn;
  repeat match goal with |- context[(14 - ?k) / 12] => let v := eval vm_compute in ((14 - k) / 12) in change ((14 - k) / 12) with v end;
  repeat match goal with |- context[(153 * ?k + 2) / 5] => let v := eval vm_compute in ((153 * k + 2) / 5) in change ((153 * k + 2) / 5) with v end;
  cal_cbn;
  (destruct (y mod 400 =? 0) eqn:E1; [|destruct (y mod 100 =? 0) eqn:E2; [|destruct (y mod 4 =? 0) eqn:E3]]);
  cal_cbn; lia.
Qed.

Lemma dow_spec y m d : 1 <= m <= 12 -> dow_of_ymd y m d = weekday (Cal y m d).
Proof.
  intros H. unfold dow_of_ymd, weekday, rd, days_before_year; cbn [cy cm cd]. rewrite dbm_eq by lia.
  unfold is_leap. by_month H; cal_cbn;
  repeat match goal with |- context[(14 - ?k) / 12] => let v := eval vm_compute in ((14 - k) / 12) in change ((14 - k) / 12) with v end;
  repeat match goal with |- context[(31 * ?k) / 12] => let v := eval vm_compute in ((31 * k) / 12) in change ((31 * k) / 12) with v end;
  cal_cbn;
  (destruct (y mod 400 =? 0) eqn:E1; [|destruct (y mod 100 =? 0) eqn:E2; [|destruct (y mod 4 =? 0) eqn:E3]]);
  cal_cbn; lia.
Qed.

(** [from_day_number] inverts the day count on every non-negative day number. *)
Lemma fdn_century a b : b = (4 * a + 3) / 146097 ->
  0 <= a - (146097 * b) / 4 <= 36524 /\ (a - (146097 * b) / 4 = 36524 -> b mod 4 = 3).
Proof. intros ->. lia. Qed.
Lemma fdn_year c d : 0 <= c <= 36524 -> d = (4 * c + 3) / 1461 ->
  0 <= d <= 99 /\ 0 <= c - (1461 * d) / 4 <= 365 /\
  (c - (1461 * d) / 4 = 365 -> d mod 4 = 3 /\ (d = 99 -> c = 36524)).
Proof. intros H ->. lia. Qed.

Lemma from_day_number_sound k : 0 <= k ->
  let '(y, m, d) := from_day_number k in valid (Cal y m d) /\ rd (Cal y m d) + JDN0 = k.
Proof.
  intros Hk. unfold from_day_number. set (a := k + 32044). cbv zeta.
  set (b := (4 * a + 3) / 146097). destruct (fdn_century a b eq_refl) as [Hc Hc']. set (c := a - 146097 * b / 4) in *.
  set (d := (4 * c + 3) / 1461). destruct (fdn_year c d Hc eq_refl) as (Hd & He & He'). set (e := c - 1461 * d / 4) in *.
  set (m := (5 * e + 2) / 153). assert (Hm : 0 <= m <= 11) by (unfold m; lia).
  assert (Hk' : k = e + 1461 * d / 4 + 146097 * b / 4 - 32044) by (unfold e, c, a; lia).
  clearbody e. clear Hk.
  assert (HM : 1 <= m + 3 - 12 * (m / 10) <= 12) by lia.
  assert (Cm : m = 0 \/ m = 1 \/ m = 2 \/ m = 3 \/ m = 4 \/ m = 5 \/ m = 6 \/ m = 7 \/ m = 8 \/ m = 9 \/ m = 10 \/ m = 11) by lia.
  assert (Y4 : (100 * b + d) / 4 = 25 * b + d / 4) by (clear - Hd; lia).
  assert (Y100 : (100 * b + d) / 100 = b) by (clear - Hd; lia).
  assert (Y400 : (100 * b + d) / 400 = b / 4) by (clear - Hd; lia).
  split.
  - split; [exact HM|]. cbn [cy cm cd].
    assert (Hdn : 153 * m <= 5 * e + 2 < 153 * m + 153) by (unfold m; clear; lia).
    clearbody m.
    destruct (Z.eq_dec m 11) as [->|Hn].
    + (* February *)
      change (11 / 10) with 1. change (11 + 3 - 12 * 1) with 2. change ((153 * 11 + 2) / 5) with 337.
      unfold month_len. cal_cbn.
      assert (L : e = 365 -> is_leap (100 * b + d - 4800 + 1) = true).
      { intros E. destruct (He' E) as [D4 D99]. unfold is_leap.
        destruct (Z.eq_dec d 99) as [D|D].
        - specialize (Hc' (D99 D)). clearbody d b.
          replace ((100 * b + d - 4800 + 1) mod 400 =? 0) with true by (clear - D Hc'; lia). reflexivity.
        - clearbody d b.
          replace ((100 * b + d - 4800 + 1) mod 100 =? 0) with false by (clear - D Hd; lia).
          replace ((100 * b + d - 4800 + 1) mod 4 =? 0) with true by (clear - D4; lia).
          destruct (_ =? 0); reflexivity. }
      destruct (is_leap _) eqn:EL; [lia|].
      assert (e <> 365) by (intros E; specialize (L E); congruence). lia.
    + decompose [or] Cm; subst m; try congruence; unfold month_len; cal_cbn; clear - Hdn; lia.
  - rewrite <- day_number_spec by exact HM.
    unfold day_number.
    replace ((14 - (m + 3 - 12 * (m / 10))) / 12) with (m / 10) by (clear - Cm; lia).
    replace (100 * b + d - 4800 + m / 10 + 4800 - m / 10) with (100 * b + d) by (clear; lia).
    replace (m + 3 - 12 * (m / 10) + 12 * (m / 10) - 3) with m by (clear; lia).
    cbv zeta. rewrite Y4, Y100, Y400, Hk'. clear. clearbody d b m. lia.
Qed.

Lemma from_day_number_rd c : valid c -> 0 <= rd c + JDN0 -> from_day_number (rd c + JDN0) = (cy c, cm c, cd c).
Proof.
  intros V H. pose proof (from_day_number_sound _ H) as S.
  destruct (from_day_number (rd c + JDN0)) as [[y m] d]. destruct S as [V' E].
  assert (c = Cal y m d) as -> by (apply rd_inj; [exact V|exact V'|lia]). reflexivity.
Qed.

