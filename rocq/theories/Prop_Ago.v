(** * "N units ago" and "N units later" (C39, C40) *)
From Verif Require Import Base Regex RegexParse Calendar Components Utils Execute Spec View ParserSpec PhraseSpec CalendarFacts RegexFacts ResultFacts
  ExecuteFacts ParserRe MatchFacts FuelFacts LocateFacts HistoryFacts ParserFacts CasualFacts NumberFacts DeadlineFacts Symbolic Open OrdinalFacts FragmentFacts AgoRuns AgoFacts
  HolidayFacts Main P_Deadline P_TimeAgo P_TimeLater Prop_Execute Prop_Casual.
From Coq Require Import ZifyBool ZifyNat ZifyN.
Open Scope string_scope.
Open Scope list_scope.
Open Scope Z_scope.

Lemma backslash_back text : In backslash (to_lower text) -> In backslash text.
Proof.
  intros I. apply in_map_iff in I as (c & E & I).
  assert (Hc : implb (Ascii.eqb (lower c) backslash) (Ascii.eqb c backslash) = true) by (generalize c; apply forall_ascii; vm_compute; reflexivity).
  rewrite E in Hc. cbn in Hc. apply Ascii.eqb_eq in Hc. subst c. exact I.
Qed.
Lemma needs_search r t m : needs true (Ascii.eqb backslash) r = true -> search true r t = Some m -> In backslash t.
Proof.
  intros N S. destruct (search_split _ _ _ _ S) as (pre & post & E & _ & L & _).
  destruct (needs_ok true (Ascii.eqb backslash) r _ N L) as (c & Ic & Ec). apply Ascii.eqb_eq in Ec. subst c. rewrite E. apply in_or_app. right. apply in_or_app. left. exact Ic.
Qed.
Lemma nothing_found e p g text ref r : compile (p_pattern p) = Some r -> needs true (Ascii.eqb backslash) r = true -> ~ In backslash text ->
  execute e p g text ref = {| x_words := g; x_text := to_lower text; x_res := Ret [] |}.
Proof.
  intros C N Nb. unfold execute. rewrite C. cbn [exec_loop]. destruct (search true r (to_lower text)) as [m|] eqn:S; [|reflexivity].
  exfalso. apply Nb, backslash_back. exact (needs_search _ _ _ N S).
Qed.

(** C39 is false: "ago" phrases are not recognised. *)
Theorem C39_ago_refuted : exists t', let t := Moment (Cal 2024 1 2) 12 0 0 in real_instant t 0 /\ seconds_after (-300) t t' /\ real_moment t' /\
  x_res (execute strict_env time_ago gwords_init (bs "5 minutes ago") (ptime_of t 0)) = Ret [].
Proof. exists (Moment (Cal 2024 1 2) 11 55 0). cbv zeta. split; [inst|]. split; [concrete|]. split; [concrete|]. vm_compute; reflexivity. Qed.
Print Assumptions C39_ago_refuted.
(** In fact no text without a backslash is ever recognised: the parser returns no result and leaves nothing changed. *)
Theorem C39_ago_never : forall e g text ref, ~ In backslash text ->
  execute e time_ago g text ref = {| x_words := g; x_text := to_lower text; x_res := Ret [] |}.
Proof. intros e g text ref N. apply (nothing_found _ _ _ _ _ time_ago_re time_ago_compile); [vm_compute; reflexivity|exact N]. Qed.
Print Assumptions C39_ago_never.
Example C39_never_case : ~ In backslash (bs "half an hour ago").
Proof. cbn. unfold backslash. intuition discriminate. Qed.

(** the phrase as the pattern wants it: an amount, a unit, a backslash and the key word *)
Definition slashed (words : list string) (tx n : bytes) (k : string) : Prop :=
  exists sp u kw, tx = n ++ sp ++ bs u ++ bs "\" ++ bs kw /\ blanks sp /\ sp <> [] /\ In (u, k) fragment_words /\ In kw words.
Lemma real_month_possible res m : getMonth (r_start res) = m -> 1 <= m -> hasPossibleDates res = true.
Proof. intros E H. unfold hasPossibleDates. rewrite E. destruct (getYear _ =? 0); cbn [andb negb]; [|reflexivity]. replace (m =? 0) with false by lia. reflexivity. Qed.

Lemma ago_result e g text t us n k q f : real_instant t us -> slashed ago_words (to_lower text) n k -> spells n (Whole q) -> q <= 2 ^ 24 ->
  (forall res, exists d x, frag_loop true (-1) (frag_put frags_empty k (FInt q)) frag_order (dn_of (mdate t), ptime_of t us) = Ret (d, x) /\
    frag_finish (frag_put frags_empty k (FInt q)) d x res = Ret (on_start f res)) ->
  hasPossibleDates (on_start f (res_new (ptime_of t us) 0 (to_lower text))) = true ->
  exists res, x_res (execute e time_ago g text (ptime_of t us)) = Ret [res] /\ r_text res = to_lower text /\ r_index res = 0 /\ has_end res = false /\ r_start res = f pc_default.
Proof.
  intros H (sp & u & kw & E & B & Ns & Iu & Ik) Sp Hq Hf Hp.
  destruct (ago_search n (Whole q) sp u k kw Sp B Iu Ik (spells_low _ _ Sp)) as (m & S & Ps & Em & G). rewrite <- E in S, Em.
  destruct (Hf (res_new (ptime_of t us) 0 (to_lower text))) as (d & x & L & F).
  eexists (res_copy (setTag TTimeAgo (on_start f (res_new (ptime_of t us) 0 (to_lower text))))). split.
  - rewrite (execute_whole e time_ago g text (ptime_of t us) time_ago_re m g (setTag TTimeAgo (on_start f (res_new (ptime_of t us) 0 (to_lower text)))) time_ago_compile); auto.
    + apply Nat.leb_le. vm_compute. reflexivity.
    + cbn [p_extract time_ago]. unfold pure_extract, time_ago_extract. cbn [grp]. rewrite Em. unfold single_word_tail. rewrite Ps. cbn [Nat.ltb Nat.leb bind].
      change (grp m 2) with (cap_lookup 2 (m_caps m)) in G. rewrite G, (one_fragment n (Whole q) sp u k Sp Hq B Iu). cbn [bind quantity_float]. rewrite (pt_date_of _ _ H). cbn [bind].
      rewrite L. cbn [bind]. rewrite F. reflexivity.
  - repeat split.
Qed.

(** Part of C39 (missing: the phrases as people write them): with a backslash between the unit and the key word, one result,
    in any letter case and with any white space.  Clock units: the moment that long before the reference, time certain and date implied. *)
Theorem C39_ago_clock_partial : forall e g text t us n k q L t', real_instant t us -> slashed ago_words (to_lower text) n k -> spells n (Whole q) -> 0 < q <= 2 ^ 24 ->
  unit_length k = Some L -> seconds_after (- (q * L)) t t' -> real_date (mdate t') ->
  exists res, x_res (execute e time_ago g text (ptime_of t us)) = Ret [res] /\ r_text res = to_lower text /\ r_index res = 0 /\ has_end res = false /\
    denotes (r_start res) t' /\ clock_certain (r_start res) t' /\ date_implied (r_start res) (mdate t').
Proof.
  intros e g text t us n k q L t' H Sl Sp Hq U Sa R.
  destruct (ago_result e g text t us n k q (stamp t') H Sl Sp) as (res & X & T & Ix & En & St); [lia| | |].
  - intros res. refine (clock_shift true (-1) k q L t us t' res U Hq H _ R). replace (-1 * (q * L)) with (- (q * L)) by lia. exact Sa.
  - apply (real_month_possible _ (cm (mdate t'))); [reflexivity|apply R].
  - exists res. do 4 (split; [assumption|]). rewrite St. split; [repeat split|]. split; [repeat split|]. repeat split.
Qed.
Print Assumptions C39_ago_clock_partial.
(** Calendar units: the date, certain; the clock untouched. *)
Theorem C39_ago_date_partial : forall e g text t us n k q c, real_instant t us -> slashed ago_words (to_lower text) n k -> spells n (Whole q) -> 0 < q <= 2 ^ 24 ->
  units_after k (- q) (mdate t) c -> real_date c ->
  exists res, x_res (execute e time_ago g text (ptime_of t us)) = Ret [res] /\ r_text res = to_lower text /\ r_index res = 0 /\ has_end res = false /\
    date_certain (r_start res) c /\ untouched [WDay; Hour; Min; Sec; TzOffset] (r_start res).
Proof.
  intros e g text t us n k q c H Sl Sp Hq U R.
  destruct (ago_result e g text t us n k q (dated c) H Sl Sp) as (res & X & T & Ix & En & St); [lia| | |].
  - intros res. refine (calendar_shift true (-1) k q t us c res (or_intror eq_refl) Hq H _ R). replace (-1 * q) with (- q) by lia. exact U.
  - apply (real_month_possible _ (cm c)); [reflexivity|apply R].
  - exists res. do 4 (split; [assumption|]). rewrite St. split; [repeat split|]. repeat constructor.
Qed.
Print Assumptions C39_ago_date_partial.

Example C39_case : exists r, let t := Moment (Cal 2024 3 31) 0 10 0 in
  real_instant t 3 /\ slashed ago_words (to_lower (bs "A  few Months\AGO")) (bs "a  few") "month" /\ spells (bs "a  few") (Whole 3) /\
  units_after "month" (-3) (Cal 2024 3 31) (Cal 2023 12 31) /\ real_date (Cal 2023 12 31) /\
  seconds_after (- (15 * 60)) t (Moment (Cal 2024 3 30) 23 55 0) /\
  x_res (execute strict_env time_ago gwords_init (bs "A  few Months\AGO") (ptime_of t 3)) = Ret [r] /\ toDate r = Ret (bs "2023-Dec-31 00:00:00").
Proof.
  eexists. cbv zeta. split; [inst|]. split.
  { exists (bs " "), "months", "ago". split; [reflexivity|]. split; [repeat constructor|]. split; [discriminate|]. split; cbn; auto 20. }
  split; [apply (sp_few (bs "a") (bs "  ")); [left; reflexivity|repeat constructor|discriminate]|].
  split; [split; [|cbn; lia]; split; [reflexivity|split; [cbn; lia|reflexivity]]|]. split; [inst|]. split; [concrete|]. split; [vm_compute; reflexivity|]. vm_compute; reflexivity.
Qed.

(** ** later *)
Theorem C40_later_refuted : exists c, let t := Moment (Cal 2024 1 2) 12 0 0 in real_instant t 0 /\ days_after 4 (mdate t) c /\ real_date c /\
  x_res (execute strict_env time_later gwords_init (bs "4 days from now") (ptime_of t 0)) = Ret [].
Proof. exists (Cal 2024 1 6). cbv zeta. split; [inst|]. split; [concrete|]. split; [concrete|]. vm_compute; reflexivity. Qed.
Print Assumptions C40_later_refuted.
Theorem C40_later_never : forall e g text ref, ~ In backslash text ->
  execute e time_later g text ref = {| x_words := g; x_text := to_lower text; x_res := Ret [] |}.
Proof. intros e g text ref N. apply (nothing_found _ _ _ _ _ time_later_re time_later_compile); [vm_compute; reflexivity|exact N]. Qed.
Print Assumptions C40_later_never.

Lemma later_result e g text t us n k q f : real_instant t us -> slashed later_words (to_lower text) n k -> spells n (Whole q) -> q <= 2 ^ 24 ->
  plain_spaces (to_lower text) ->
  (forall res, exists d x, frag_loop false 1 (frag_put frags_empty k (FInt q)) frag_order (dn_of (mdate t), ptime_of t us) = Ret (d, x) /\
    frag_finish (frag_put frags_empty k (FInt q)) d x res = Ret (on_start f res)) ->
  (hasPossibleDates (on_start f (res_new (ptime_of t us) 0 (to_lower text))) = true) ->
  exists res, x_res (execute e time_later g text (ptime_of t us)) = Ret [res] /\ r_text res = to_lower text /\ r_index res = 0 /\ has_end res = false /\ r_start res = f pc_default.
Proof.
  intros H (sp & u & kw & E & B & Ns & Iu & Ik) Sp Hq Pl Hf Hp.
  assert (Pl' : plain_spaces (n ++ sp)). { rewrite E, app_assoc in Pl. apply Forall_app in Pl. apply Pl. }
  destruct (later_search n q sp u k kw Sp B Ns Iu Ik Pl') as (m & S & Ps & Em & G & G1). rewrite <- E in S, Em.
  destruct (Hf (res_new (ptime_of t us) 0 (to_lower text))) as (d & x & L & F).
  eexists (res_copy (setTag TTimeLater (on_start f (res_new (ptime_of t us) 0 (to_lower text))))). split.
  - rewrite (execute_whole e time_later g text (ptime_of t us) time_later_re m g (setTag TTimeLater (on_start f (res_new (ptime_of t us) 0 (to_lower text)))) time_later_compile); auto.
    + apply Nat.leb_le. vm_compute. reflexivity.
    + cbn [p_extract time_later]. unfold pure_extract, time_later_extract. rewrite G1. cbn [List.length]. rewrite substr_from_ok by lia. cbn [bind skipn grp]. rewrite Em.
      unfold single_word_tail. rewrite Ps. cbn [Nat.ltb Nat.leb bind].
      change (grp m 2) with (cap_lookup 2 (m_caps m)) in G. rewrite G, (one_fragment n (Whole q) sp u k Sp Hq B Iu). cbn [bind quantity_float]. rewrite (pt_date_of _ _ H). cbn [bind].
      rewrite L. cbn [bind]. rewrite F. reflexivity.
  - repeat split.
Qed.

(** The same for "later" and "from now"; the only white space being spaces. *)
Theorem C40_later_clock_partial : forall e g text t us n k q L t', real_instant t us -> slashed later_words (to_lower text) n k -> plain_spaces (to_lower text) ->
  spells n (Whole q) -> 0 < q <= 2 ^ 24 -> unit_length k = Some L -> seconds_after (q * L) t t' -> real_date (mdate t') ->
  exists res, x_res (execute e time_later g text (ptime_of t us)) = Ret [res] /\ r_text res = to_lower text /\ r_index res = 0 /\ has_end res = false /\
    denotes (r_start res) t' /\ clock_certain (r_start res) t' /\ date_implied (r_start res) (mdate t').
Proof.
  intros e g text t us n k q L t' H Sl Pl Sp Hq U Sa R.
  destruct (later_result e g text t us n k q (stamp t') H Sl Sp) as (res & X & T & Ix & En & St); [lia|exact Pl| | |].
  - intros res. refine (clock_shift false 1 k q L t us t' res U Hq H _ R). replace (1 * (q * L)) with (q * L) by lia. exact Sa.
  - apply (real_month_possible _ (cm (mdate t'))); [reflexivity|apply R].
  - exists res. do 4 (split; [assumption|]). rewrite St. split; [repeat split|]. split; [repeat split|]. repeat split.
Qed.
Print Assumptions C40_later_clock_partial.
Theorem C40_later_date_partial : forall e g text t us n k q c, real_instant t us -> slashed later_words (to_lower text) n k -> plain_spaces (to_lower text) ->
  spells n (Whole q) -> 0 < q <= 2 ^ 24 -> units_after k q (mdate t) c -> real_date c ->
  exists res, x_res (execute e time_later g text (ptime_of t us)) = Ret [res] /\ r_text res = to_lower text /\ r_index res = 0 /\ has_end res = false /\
    date_certain (r_start res) c /\ untouched [WDay; Hour; Min; Sec; TzOffset] (r_start res).
Proof.
  intros e g text t us n k q c H Sl Pl Sp Hq U R.
  destruct (later_result e g text t us n k q (dated c) H Sl Sp) as (res & X & T & Ix & En & St); [lia|exact Pl| | |].
  - intros res. refine (calendar_shift false 1 k q t us c res (or_introl eq_refl) Hq H _ R). replace (1 * q) with q by lia. exact U.
  - apply (real_month_possible _ (cm c)); [reflexivity|apply R].
  - exists res. do 4 (split; [assumption|]). rewrite St. split; [repeat split|]. repeat constructor.
Qed.
Print Assumptions C40_later_date_partial.

Example C40_case : exists r, let t := Moment (Cal 2024 3 31) 23 10 0 in
  real_instant t 3 /\ slashed later_words (to_lower (bs "50 minutes\from now")) (bs "50") "minute" /\ plain_spaces (to_lower (bs "50 minutes\from now")) /\
  spells (bs "50") (Whole 50) /\ seconds_after (50 * 60) t (Moment (Cal 2024 4 1) 0 0 0) /\ real_date (Cal 2024 4 1) /\
  units_after "week" 2 (Cal 2024 3 31) (Cal 2024 4 14) /\
  x_res (execute strict_env time_later gwords_init (bs "50 minutes\from now") (ptime_of t 3)) = Ret [r] /\ toDate r = Ret (bs "2024-Apr-01 00:00:00").
Proof.
  eexists. cbv zeta. split; [inst|]. split.
  { exists (bs " "), "minutes", "from now". split; [reflexivity|]. split; [repeat constructor|]. split; [discriminate|]. split; cbn; auto 20. }
  split; [repeat constructor; discriminate|]. split; [apply (sp_digits (bs "50")); [repeat constructor|discriminate]|].
  split; [concrete|]. split; [inst|]. split; [concrete|]. split; [vm_compute; reflexivity|]. vm_compute; reflexivity.
Qed.
