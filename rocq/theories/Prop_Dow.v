(** * Weekdays (C21, C22) *)
From Verif Require Import Base Regex RegexParse Calendar Components Utils Execute Spec View ParserSpec CalendarCycle CalendarFacts RegexFacts ResultFacts
  ExecuteFacts ParserRe ParserFacts CasualFacts DeadlineFacts Main P_DayOfWeek Prop_Execute Prop_Casual.
From Coq Require Import ZifyBool ZifyNat ZifyN.
Open Scope string_scope.
Open Scope list_scope.
Open Scope Z_scope.
Ltac Zify.zify_post_hook ::= Z.div_mod_to_equations.

(** C21 is false for every text: the pattern is ill-formed, so nothing is ever recognised. *)
Theorem C21_weekdays_refuted : forall e g text ref, x_res (execute e day_of_week g text ref) = Ret [].
Proof. intros. unfold execute. rewrite day_of_week_compile. reflexivity. Qed.
Print Assumptions C21_weekdays_refuted.
Example C21_case : x_res (execute strict_env day_of_week gwords_init (bs "see you on monday") noon2024) = Ret [].
Proof. vm_compute. reflexivity. Qed.

(** what the words before or after the weekday mean *)
Definition modifier_weeks (md : bytes) : option (Z * bool) :=
  if beq md (bs "last") || beq md (bs "past") then Some (-1, true)
  else if beq md (bs "next") then Some (1, true)
  else if beq md (bs "this") || is_nil md then Some (0, false) else None.
Definition timing_implies (tm : bytes) (p : pc) : Prop :=
  if beq tm (bs "earlier") || beq tm (bs "early") then implied_is Hour 6 p /\ implied_is Min 1 p
  else if beq tm (bs "late") then implied_is Hour 20 p /\ implied_is Min 1 p
  else untouched [Hour; Min] p.
(** two weeks before and after the reference date exist *)
Definition surrounded (c : cal) : Prop := exists a b, real_date a /\ days_after (-14) c a /\ real_date b /\ days_after 14 c b.

Lemma dow_resolved t w md k fixed : real_date t -> surrounded t -> 0 <= w < 7 -> modifier_weeks md = Some (k, fixed) ->
  exists c, dow_resolve (dn_of t) w md = Ret (dn_of c, fixed) /\ real_date c /\ weekday c = w /\ weeks_later k t c.
Proof.
  intros R (a & b & Ra & [_ Da] & Rb & [_ Db]) Hw M.
  assert (B : LO <= dn_of t - 14 /\ dn_of t + 14 <= HI).
  { apply real_range in Ra, Rb. unfold dn_of in *. lia. }
  assert (W : d_dow (dn_of t) = Ret (weekday t)) by (apply d_dow_real; exact R).
  assert (Wt : weekday t = (dn_of t + 1) mod 7) by apply weekday_dn.
  assert (Fin : forall X dn f, dn_of t - 14 <= dn <= dn_of t + 14 -> (dn + 1) mod 7 = w -> dn - w = dn_of t - weekday t + 7 * k -> X = Ret (dn, f) -> f = fixed ->
    exists c, X = Ret (dn_of c, fixed) /\ real_date c /\ weekday c = w /\ weeks_later k t c).
  { intros X dn f Hdn Hm Hwk E ->. destruct (dn_real dn ltac:(lia)) as (c & Rc & ->). exists c. split; [exact E|]. split; [exact Rc|].
    assert (weekday c = w) by (rewrite weekday_dn; exact Hm). split; [assumption|]. split; [apply Rc|]. unfold dn_of in *. lia. }
  unfold modifier_weeks in M. unfold dow_resolve in *. rewrite W in *. cbn [bind] in *.
  destruct (beq md (bs "last") || beq md (bs "past")).
  { injection M as <- <-. destruct (w <? weekday t) eqn:C1; [|destruct (weekday t <? w) eqn:C2].
    - destruct (first_before_spec w (dn_of t - 7) Hw) as (i & E & Hi & Em); [lia|lia|]. rewrite E in *. cbn [bind] in *.
      eapply Fin; [|exact Em| |reflexivity|reflexivity]; lia.
    - destruct (first_after_spec w (dn_of t - 7) Hw) as (i & E & Hi & Em); [lia|lia|]. rewrite E in *. cbn [bind] in *.
      eapply Fin; [|exact Em| |reflexivity|reflexivity]; lia.
    - apply (Fin _ (dn_of t - 7) true ltac:(lia) ltac:(lia) ltac:(lia) eq_refl eq_refl). }
  destruct (beq md (bs "next")).
  { injection M as <- <-. destruct (w <? weekday t) eqn:C1; [|destruct (weekday t <? w) eqn:C2].
    - destruct (first_before_spec w (dn_of t + 7) Hw) as (i & E & Hi & Em); [lia|lia|]. rewrite E in *. cbn [bind] in *.
      eapply Fin; [|exact Em| |reflexivity|reflexivity]; lia.
    - destruct (first_after_spec w (dn_of t + 7) Hw) as (i & E & Hi & Em); [lia|lia|]. rewrite E in *. cbn [bind] in *.
      eapply Fin; [|exact Em| |reflexivity|reflexivity]; lia.
    - apply (Fin _ (dn_of t + 7) true ltac:(lia) ltac:(lia) ltac:(lia) eq_refl eq_refl). }
  destruct (beq md (bs "this") || is_nil md); [|discriminate]. injection M as <- <-.
  destruct (w =? weekday t) eqn:C1; [|destruct (w <? weekday t) eqn:C2].
  - apply (Fin _ (dn_of t) false ltac:(lia) ltac:(lia) ltac:(lia) eq_refl eq_refl).
  - destruct (first_before_spec w (dn_of t) Hw) as (i & E & Hi & Em); [lia|lia|]. rewrite E in *. cbn [bind] in *.
    eapply Fin; [|exact Em| |reflexivity|reflexivity]; lia.
  - destruct (first_after_spec w (dn_of t) Hw) as (i & E & Hi & Em); [lia|lia|]. rewrite E in *. cbn [bind] in *.
    eapply Fin; [|exact Em| |reflexivity|reflexivity]; lia.
Qed.

(** C22.  Resolving a weekday: given any match whose groups are a timing word, a modifier before or after, and a weekday name. *)
Theorem C22_weekday_resolution : forall e g tx m idx t us name w k fixed, real_instant t us -> surrounded (mdate t) ->
  In (name, w) weekday_words -> grp m 4 = bs name -> grp m 3 = [] \/ grp m 5 = [] ->
  modifier_weeks (grp m 3 ++ grp m 5) = Some (k, fixed) ->
  exists res c, p_extract day_of_week e g tx m (ptime_of t us) idx = (g, Ret res) /\ real_date c /\
    weekday c = w /\ weeks_later k (mdate t) c /\
    (if fixed : bool then date_certain (r_start res) c else date_implied (r_start res) c) /\
    timing_implies (grp m 2) (r_start res) /\ untouched [WDay; Sec; TzOffset] (r_start res) /\ has_end res = false /\ r_text res = m_str m.
Proof.
  intros e g tx m idx t us name w k fixed H Sr Iw G4 G35 M. pose proof (proj1 (proj1 H)) as Rt.
  assert (Ew : tbl_get (bs name) WEEKDAY_OFFSET = w /\ 0 <= w < 7).
  { cbn in Iw. decompose [or] Iw; try contradiction; match goal with E : (_, _) = (_, _) |- _ => injection E as <- <- end; (split; [vm_compute; reflexivity|lia]). }
  destruct Ew as [Ew Hw]. destruct (dow_resolved (mdate t) w _ k fixed Rt Sr Hw M) as (c & E & Rc & Wc & Wk).
  assert (N : (if is_nil (grp m 3) then grp m 5 else if is_nil (grp m 5) then grp m 3 else []) = grp m 3 ++ grp m 5).
  { destruct G35 as [-> | ->]; cbn [is_nil]; [reflexivity|]. rewrite app_nil_r. destruct (grp m 3); reflexivity. }
  cbn [p_extract day_of_week]. unfold pure_extract, day_of_week_extract. rewrite G4, Ew, N. replace (6 <? w) with false by lia.
  unfold updateParsedComponent. rewrite pt_date_of by exact H. cbn [bind]. rewrite E. cbn [bind].
  unfold d_day, d_month, d_year. rewrite ymd_real by exact Rc. cbn [bind].
  unfold timing_implies. eexists _, c. split; [reflexivity|]. do 3 (split; [assumption|]).
  destruct fixed, (beq (grp m 2) (bs "earlier") || beq (grp m 2) (bs "early")), (beq (grp m 2) (bs "late"));
    (split; [comps|]); (split; [comps|]); (split; [comps|]); split; reflexivity.
Qed.
Print Assumptions C22_weekday_resolution.

Example C22_case : let t := Moment (Cal 2024 1 3) 12 0 0 in
  let m := {| m_pos := 0; m_str := bs "late last fri"; m_caps := [(2%nat, bs "late"); (3%nat, bs "last"); (4%nat, bs "fri")] |} in
  real_instant t 0 /\ surrounded (mdate t) /\ modifier_weeks (grp m 3 ++ grp m 5) = Some (-1, true) /\
  exists r, p_extract day_of_week strict_env gwords_init (bs "late last fri") m (ptime_of t 0) 0 = (gwords_init, Ret r) /\ toDate r = Ret (bs "2023-Dec-29 20:01:00").
Proof.
  cbv zeta. split; [inst|]. split; [exists (Cal 2023 12 20), (Cal 2024 1 17); inst|]. split; [reflexivity|]. eexists. split; [vm_compute; reflexivity|]. vm_compute; reflexivity.
Qed.
