(** * CasualFacts: casual dates and times of day, for every match *)
From Verif Require Import Base Regex RegexParse Calendar Components Utils Execute Spec View ParserSpec CalendarFacts RegexFacts ResultFacts Template
  ExecuteFacts ParserRe MatchFacts ParserFacts P_CasualDate P_CasualTime.
From Coq Require Import ZifyBool ZifyNat ZifyN.
Open Scope string_scope.
Open Scope list_scope.
Open Scope Z_scope.

(** the date the extract functions write: year, month, day of month of a date *)
Lemma get_date c (k : Z -> Z -> Z -> outcome result) : real_date c ->
  (y <- d_year (dn_of c) ;; mo <- d_month (dn_of c) ;; dd <- d_day (dn_of c) ;; k y mo dd) = k (cy c) (cm c) (cd c).
Proof. intros R. rewrite d_year_real, d_month_real, d_day_real by exact R. reflexivity. Qed.

Definition last_night_re : re := Eval vm_compute in pat "last\s*night".
Lemma last_night_compile : compile (bs "last\s*night") = Some last_night_re.
Proof. vm_compute. reflexivity. Qed.
Lemma space_set c : set_ok true false [CClass false KSpace] c = is_space c.
Proof. unfold set_ok. cbn. destruct (is_space c); reflexivity. Qed.
Lemma space_run w : Forall (fun c => set_ok true false [CClass false KSpace] c = true) w -> blanks w.
Proof. apply Forall_impl. intros c H. rewrite space_set in H. exact H. Qed.

Lemma blank_run w : blanks w -> Forall (fun c => set_ok true false [CClass false KSpace] c = true) w.
Proof. apply Forall_impl. intros c H. rewrite space_set. exact H. Qed.

Lemma last_night_lang sp : blanks sp -> lang true last_night_re (bs "last" ++ sp ++ bs "night").
Proof. intros B. apply blank_run in B. cbn [bs list_ascii_of_string app]. in_lang. Qed.
Lemma last_night_search sp : blanks sp -> search true last_night_re (bs "last" ++ sp ++ bs "night") <> None.
Proof.
  intros B E. pose proof (last_night_lang sp B) as L.
  destruct (search_complete true last_night_re (bs "last" ++ sp ++ bs "night") [] _ eq_refl) as (m & S & _).
  - eexists. rewrite <- (app_nil_r (bs "last" ++ sp ++ bs "night")). apply (plain_mt true); [reflexivity|exact L].
  - rewrite E in S. discriminate.
Qed.

Lemma with_last_night A (f : re -> outcome A) : with_re (bs "last\s*night") f = f last_night_re.
Proof. unfold with_re. rewrite last_night_compile. reflexivity. Qed.

(** ** casual dates *)
Definition casual_date_means (t : moment) (tx : bytes) (res : result) : Prop :=
  let p := r_start res in
  untouched [WDay; TzOffset] p /\
  ((tx = bs "now" /\ date_certain p (mdate t) /\ certain Hour (mhour t) p /\ certain Min (mmin t) p /\ certain Sec (msec t) p) \/
   (tx = bs "today" /\ date_certain p (mdate t) /\ untouched [Hour; Min; Sec] p) \/
   (tx = bs "tonight" /\ date_certain p (mdate t) /\ implied_is Hour 22 p /\ untouched [Min; Sec] p) \/
   (exists sp c, tx = bs "last" ++ sp ++ bs "night" /\ blanks sp /\ real_date c /\
      (if 6 <? mhour t then days_after (-1) (mdate t) c else c = mdate t) /\
      date_certain p c /\ implied_is Hour 0 p /\ untouched [Min; Sec] p) \/
   (exists sp c, tx = bs "yesterday" ++ sp /\ blanks sp /\ real_date c /\ days_after (-1) (mdate t) c /\
      date_certain p c /\ implied_is Hour (mhour t) p /\ untouched [Min; Sec] p) \/
   (exists sp c, (tx = bs "tomorrow" ++ sp \/ tx = bs "tmr" ++ sp) /\ blanks sp /\ real_date c /\
      (if 0 <? mhour t then days_after 1 (mdate t) c else c = mdate t) /\
      date_certain p c /\ untouched [Hour; Min; Sec] p)).

Lemma shift_inv t us n d : real_instant t us -> pt_date (ptime_of t us + n * DAY) = Ret d ->
  exists c, real_date c /\ d = dn_of c /\ days_after n (mdate t) c.
Proof.
  intros H P. apply pt_date_inv in P as (c & R & -> & E). exists c. split; [exact R|]. split; [reflexivity|].
  split; [apply R|]. pose proof (pt_daynum_of t us H) as D. unfold pt_daynum in D.
  assert ((ptime_of t us + n * DAY) / DAY = ptime_of t us / DAY + n) by (apply Z.div_add; discriminate).
  unfold dn_of in *. lia.
Qed.

Ltac comps := unfold untouched, date_certain, date_implied, certain, implied_is, unset;
  repeat match goal with |- _ /\ _ => split | |- Forall _ _ => constructor end; reflexivity.

Lemma casual_date_extracted e g tx m t us idx res : real_instant t us -> low tx -> search true casual_date_re tx = Some m ->
  casual_date_extract e g tx m (ptime_of t us) idx = Ret res ->
  casual_date_means t (m_str m) res /\ r_text res = m_str m /\ r_index res = u32 idx /\ has_end res = false /\
  tag_is TCasualDate res = true.
Proof.
  intros H Hl S. destruct (casual_date_match _ _ S) as (pre & post & E & _ & L & _ & _).
  assert (Lw : low (m_str m)) by (rewrite E in Hl; eapply low_part; exact Hl).
  unfold casual_date_extract. rewrite with_last_night. cbn [grp]. clear S E Hl. revert L Lw. generalize (m_str m) as w. intros w L Lw.
  pose proof (proj1 (proj1 H)) as Rt.
  assert (D : forall (b : bool) n d, pt_date (if b then ptime_of t us + n * DAY else ptime_of t us) = Ret d ->
              exists c, real_date c /\ d = dn_of c /\ (if b then days_after n (mdate t) c else c = mdate t)).
  { intros [] n d P; [apply (shift_inv t us n d H P)|]. rewrite pt_date_of in P by exact H. injection P as <-. eauto. }
  word_cases L; rewrite ?app_nil_r in *; cbn [bs list_ascii_of_string app starts_with Ascii.eqb Bool.eqb andb orb];
    rewrite ?pt_hours_of, ?pt_minutes_of, ?pt_seconds_of by exact H; cbn [bind].
  - (* now *)
    replace (search _ _ _) with (@None mres) by (vm_compute; reflexivity).
    cbn [beq bs list_ascii_of_string Ascii.eqb Bool.eqb andb bind]. rewrite pt_date_of by exact H. cbn [bind]. rewrite get_date by exact Rt.
    intros X; injection X as <-. split; [|repeat split]. split; [comps|]. left. split; [reflexivity|comps].
  - (* today *)
    replace (search _ _ _) with (@None mres) by (vm_compute; reflexivity).
    cbn [beq bs list_ascii_of_string Ascii.eqb Bool.eqb andb bind]. rewrite pt_date_of by exact H. cbn [bind]. rewrite get_date by exact Rt.
    intros X; injection X as <-. split; [|repeat split]. split; [comps|]. right; left. split; [reflexivity|comps].
  - (* tonight *)
    rewrite pt_date_of by exact H. cbn [bind]. rewrite get_date by exact Rt.
    intros X; injection X as <-. split; [|repeat split]. split; [comps|]. right; right; left. split; [reflexivity|comps].
  - (* last night *)
    pose proof (space_run _ R) as B. pose proof (last_night_search _ B) as N.
    cbn [bs list_ascii_of_string app] in N. destruct (search _ _ _) as [m'|]; [|congruence].
    cbn [bind]. intros X. apply bind_ret in X as (d & P & X). change (ptime_of t us - DAY) with (ptime_of t us + -1 * DAY) in P.
    apply D in P as (c & Rc & -> & Dc). rewrite get_date in X by exact Rc. injection X as <-. split; [|repeat split]. split; [comps|].
    right; right; right; left. match goal with R : Forall _ ?x |- _ => exists x, c end. do 4 (split; [first [assumption|reflexivity]|]). comps.
  - (* tomorrow *)
    intros X. apply bind_ret in X as (d & P & X). change (ptime_of t us + DAY) with (ptime_of t us + 1 * DAY) in P.
    apply D in P as (c & Rc & -> & Dc). rewrite get_date in X by exact Rc. injection X as <-. split; [|repeat split]. split; [comps|].
    right; right; right; right; right. match goal with R : Forall _ ?x |- _ => exists x, c end. split; [left; reflexivity|]. do 3 (split; [first [assumption|apply space_run; assumption]|]). comps.
  - (* tmr *)
    intros X. apply bind_ret in X as (d & P & X). change (ptime_of t us + DAY) with (ptime_of t us + 1 * DAY) in P.
    apply D in P as (c & Rc & -> & Dc). rewrite get_date in X by exact Rc. injection X as <-. split; [|repeat split]. split; [comps|].
    right; right; right; right; right. match goal with R : Forall _ ?x |- _ => exists x, c end. split; [right; reflexivity|]. do 3 (split; [first [assumption|apply space_run; assumption]|]). comps.
  - (* yesterday *)
    intros X. apply bind_ret in X as (d & P & X). change (ptime_of t us - DAY) with (ptime_of t us + -1 * DAY) in P.
    apply (D true) in P as (c & Rc & -> & Dc). rewrite get_date in X by exact Rc. injection X as <-. split; [|repeat split]. split; [comps|].
    right; right; right; right; left. match goal with R : Forall _ ?x |- _ => exists x, c end. split; [reflexivity|]. do 3 (split; [first [assumption|apply space_run; assumption]|]). comps.
  - (* tomorrow *)
    intros X. apply bind_ret in X as (d & P & X). change (ptime_of t us + DAY) with (ptime_of t us + 1 * DAY) in P.
    apply D in P as (c & Rc & -> & Dc). rewrite get_date in X by exact Rc. injection X as <-. split; [|repeat split]. split; [comps|].
    right; right; right; right; right. exists [], c. split; [left; reflexivity|]. split; [constructor|]. do 2 (split; [assumption|]). comps.
  - (* tmr *)
    intros X. apply bind_ret in X as (d & P & X). change (ptime_of t us + DAY) with (ptime_of t us + 1 * DAY) in P.
    apply D in P as (c & Rc & -> & Dc). rewrite get_date in X by exact Rc. injection X as <-. split; [|repeat split]. split; [comps|].
    right; right; right; right; right. exists [], c. split; [right; reflexivity|]. split; [constructor|]. do 2 (split; [assumption|]). comps.
  - (* yesterday *)
    intros X. apply bind_ret in X as (d & P & X). change (ptime_of t us - DAY) with (ptime_of t us + -1 * DAY) in P.
    apply (D true) in P as (c & Rc & -> & Dc). rewrite get_date in X by exact Rc. injection X as <-. split; [|repeat split]. split; [comps|].
    right; right; right; right; left. exists [], c. split; [reflexivity|]. split; [constructor|]. do 2 (split; [assumption|]). comps.
Qed.

Lemma date_certain_possible res c : real_date c -> date_certain (r_start res) c -> hasPossibleDates res = true.
Proof.
  intros [_ Y] (D & _). unfold in_range_year in Y. destruct D as [_ D]. cbn [api_get] in D. apply possible_meaning. left. lia.
Qed.
Lemma date_implied_possible res c : real_date c -> date_implied (r_start res) c -> hasPossibleDates res = true.
Proof.
  intros [_ Y] (D & _). unfold in_range_year in Y. destruct D as [_ [_ D]]. cbn [api_get] in D. apply possible_meaning. left. lia.
Qed.
Lemma casual_date_possible t us tx res : real_instant t us -> casual_date_means t tx res -> hasPossibleDates res = true.
Proof.
  intros [[R _] _] (_ & M).
  destruct M as [(_ & D & _)|[(_ & D & _)|[(_ & D & _)|[(? & c & _ & _ & Rc & _ & D & _)|[(? & c & _ & _ & Rc & _ & D & _)|(? & c & _ & _ & Rc & _ & D & _)]]]]];
    eapply date_certain_possible; eauto.
Qed.

(** the days around the reference are in the calendar's range *)
Definition neighbours (c : cal) : Prop := exists a b, real_date a /\ days_after (-1) c a /\ real_date b /\ days_after 1 c b.

Lemma pt_date_shift t us n c : real_instant t us -> real_date c -> days_after n (mdate t) c ->
  pt_date (ptime_of t us + n * DAY) = Ret (dn_of c).
Proof.
  intros H R D. destruct (ptime_shift_days t us n c H R D) as [-> H']. apply (pt_date_of _ _ H').
Qed.

Lemma casual_date_returns e g tx m t us idx : real_instant t us -> neighbours (mdate t) ->
  exists res, casual_date_extract e g tx m (ptime_of t us) idx = Ret res.
Proof.
  intros H (a & b & Ra & Da & Rb & Db). pose proof (proj1 (proj1 H)) as Rt. unfold casual_date_extract. rewrite with_last_night.
  rewrite pt_hours_of, pt_minutes_of, pt_seconds_of by exact H. cbn [bind].
  pose proof (pt_date_of t us H) as P0. pose proof (pt_date_shift t us (-1) a H Ra Da) as Pa. pose proof (pt_date_shift t us 1 b H Rb Db) as Pb.
  change (ptime_of t us + -1 * DAY) with (ptime_of t us - DAY) in Pa. change (ptime_of t us + 1 * DAY) with (ptime_of t us + DAY) in Pb.
  repeat match goal with
  | |- context [if ?b then _ else _] => destruct b
  | |- context [match search ?a ?b ?c with _ => _ end] => destruct (search a b c)
  end; cbn [bind]; rewrite ?P0, ?Pa, ?Pb; cbn [bind]; rewrite get_date by assumption; eauto.
Qed.

(** ** times of day *)
Definition time_of_day : list (string * Z) :=
  [("morning"%string, 6); ("afternoon"%string, 15); ("evening"%string, 20); ("noon"%string, 12); ("night"%string, 20)].
Definition casual_time_means (t : moment) (tx : bytes) (res : result) : Prop :=
  let p := r_start res in
  exists this sp w h, tx = this ++ sp ++ bs w /\ (this = [] \/ this = bs "this") /\ blanks sp /\ In (w, h) time_of_day /\
  date_implied p (mdate t) /\ implied_is WDay (weekday (mdate t)) p /\ implied_is Hour h p /\ implied_is Min (mmin t) p /\
  untouched [Sec; TzOffset] p.

Lemma casual_time_extracted e g tx m t us idx : real_instant t us -> low tx -> search true casual_time_re tx = Some m ->
  exists res, casual_time_extract e g tx m (ptime_of t us) idx = Ret res /\
  casual_time_means t (m_str m) res /\ r_text res = m_str m /\ r_index res = u32 idx /\ has_end res = false /\
  tag_is TCasualTime res = true.
Proof.
  intros H Hl S. destruct (casual_time_match _ _ S) as (pre & post & this & sp & w & E & _ & Em & Ht & B & L & G).
  assert (Lm : low (m_str m)) by (rewrite E in Hl; eapply low_part; exact Hl).
  rewrite Em in Lm. apply low_app in Lm as [Lt Lm]. apply low_app in Lm as [_ Lw].
  pose proof (proj1 (proj1 H)) as Rt.
  unfold casual_time_extract. rewrite G. cbn [grp]. rewrite pt_date_of by exact H. cbn [bind].
  rewrite d_year_real, d_month_real, d_day_real, d_dow_real by exact Rt. cbn [bind]. rewrite pt_minutes_of by exact H. cbn [bind].
  eexists. split; [reflexivity|].
  assert (Et : this = [] \/ this = bs "this").
  { destruct Ht as [->|Ht]; [left; reflexivity|right]. word_cases Ht. reflexivity. }
  clear S G E Hl Ht. rewrite Em.
  word_cases L; (split; [|repeat split]).
  - exists this, sp, "morning", 6. split; [reflexivity|]. split; [exact Et|]. split; [exact B|]. split; [cbn; tauto|]. comps.
  - exists this, sp, "afternoon", 15. split; [reflexivity|]. split; [exact Et|]. split; [exact B|]. split; [cbn; tauto|]. comps.
  - exists this, sp, "evening", 20. split; [reflexivity|]. split; [exact Et|]. split; [exact B|]. split; [cbn; tauto|]. comps.
  - exists this, sp, "noon", 12. split; [reflexivity|]. split; [exact Et|]. split; [exact B|]. split; [cbn; tauto|]. comps.
  - exists this, sp, "night", 20. split; [reflexivity|]. split; [exact Et|]. split; [exact B|]. split; [cbn; tauto|]. comps.
Qed.
