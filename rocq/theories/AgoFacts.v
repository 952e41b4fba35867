(** * AgoFacts: from the matches of AgoRuns.v to the results, and the date arithmetic behind them *)
From Verif Require Import Base Regex RegexParse Calendar Components Utils Execute Spec View ParserSpec PhraseSpec CalendarFacts RegexFacts ResultFacts
  ExecuteFacts ParserRe MatchFacts FuelFacts ParserFacts CasualFacts NumberFacts DeadlineFacts Symbolic Open OrdinalFacts FragmentFacts AgoRuns P_Deadline P_TimeAgo P_TimeLater.
From Coq Require Import ZifyBool ZifyNat ZifyN.
Open Scope string_scope.
Open Scope list_scope.
Open Scope Z_scope.

Lemma self_text w : items_text (cased w w) = w.
Proof. apply cased_text. reflexivity. Qed.
Lemma self_ok R w : Forall (item_ok' true R) (cased w w).
Proof. apply cased_ok. reflexivity. Qed.

Lemma ago_search n q sp u k kw : spells n q -> blanks sp -> In (u, k) fragment_words -> In kw ago_words -> low n ->
  exists m, search true time_ago_re (n ++ sp ++ bs u ++ bs "\" ++ bs kw) = Some m /\ m_pos m = 0%nat /\ m_str m = n ++ sp ++ bs u ++ bs "\" ++ bs kw /\
    grp m 2 = n ++ sp ++ bs u ++ bs "\".
Proof.
  intros Sp B I Ik Ln. destruct (spelled_items time_ago_re n q n ag_digit ag_blank Sp (low_lower _ Ln)) as (N & HN & TN & FN).
  pose proof (ago_run N sp u kw HN (in_map fst _ _ I) Ik) as R.
  assert (F : Forall (item_ok' true time_ago_re) (ago_items N sp u kw)).
  { unfold ago_items, bk. apply Forall_app. split; [exact FN|]. constructor; [apply (run_ok _ _ _ _ _ ag_blank B)|]. apply Forall_app. split; [apply self_ok|].
    apply Forall_app. split; [apply (self_ok _ (bs "\"))|apply self_ok]. }
  pose proof (open_search true time_ago_re closed [] _ _ eq_refl F R) as S0. rewrite app_nil_r in S0.
  assert (Et : items_text (ago_items N sp u kw) = n ++ sp ++ bs u ++ bs "\" ++ bs kw).
  { unfold ago_items, bk. rewrite items_text_app, items_text_cons, !items_text_app, !self_text, TN. reflexivity. }
  rewrite Et in S0. eexists. split; [exact S0|]. cbn [yres m_pos m_str]. split; [reflexivity|]. split; [exact Et|].
  cbn [grp m_caps caps_text map fst snd cap_lookup Nat.eqb]. unfold ago_group, bk. rewrite items_text_app, items_text_cons, !items_text_app, !self_text, TN. reflexivity.
Qed.

Lemma spells_low n q : spells n q -> low n.
Proof.
  intros Sp. assert (Lb : forall s, blanks s -> low s) by (intros s B; rewrite <- (blanks_down s B); apply low_to_lower).
  destruct Sp as [w k I|w D Nw|a A|a sp A B Nsp| |a sp A B Nsp].
  - cbn in I. decompose [or] I; try contradiction; match goal with E : (_, _) = (_, _) |- _ => injection E as <- <- end; repeat constructor.
  - rewrite <- (digits_down w D). apply low_to_lower.
  - apply article_low, A.
  - apply low_app. split; [apply article_low, A|]. apply low_app. split; [apply Lb, B|]. repeat constructor.
  - repeat constructor.
  - apply low_app. split; [repeat constructor|]. apply low_app. split; [apply Lb, B|]. apply article_low, A.
Qed.

(** every white-space character is a space *)
Definition plain_spaces (t : bytes) : Prop := Forall (fun c => is_space c = true -> c = " "%char) t.
Lemma plain_run s : blanks s -> plain_spaces s -> Forall (fun c => Ascii.eqb " " c = true) s.
Proof. unfold blanks, plain_spaces. rewrite !Forall_forall. intros B P c I. rewrite (P c I (B c I)). reflexivity. Qed.
Lemma spells_whole n k : spells n (Whole k) -> plain_spaces n -> exists N, whole_items N /\ items_text N = n /\ Forall (item_ok' true time_later_re) N.
Proof.
  intros Sp P. inversion Sp as [w k' I|w D Nw|a A|a sp A B Nsp| |]; subst.
  - exists (cased (bs w) (bs w)). split; [left; eexists _, _; split; [reflexivity|]; apply in_or_app; left; apply (in_map (fun x => bs (fst x)) _ _ I)|]. split; [apply self_text|apply self_ok].
  - destruct n as [|c w]; [congruence|]. inversion D as [|? ? Hc Hw]; subst. exists [SC c "0"; SR w "0"]. split; [right; left; eauto|]. split; [cbn; rewrite app_nil_r; reflexivity|].
    constructor; [apply (char_ok _ _ _ _ _ lt_digit Hc)|constructor; [apply (run_ok _ _ _ _ _ lt_digit Hw)|constructor]].
  - exists (cased n n). split; [left; eexists _, _; split; [reflexivity|]; apply in_or_app; right; destruct A as [-> | ->]; cbn; auto|]. split; [apply self_text|apply self_ok].
  - apply Forall_app in P as [_ P]. apply Forall_app in P as [P _]. pose proof (plain_run sp B P) as Ps. destruct sp as [|c sp]; [congruence|]. inversion Ps as [|? ? Hc Hs]; subst.
    exists (cased a a ++ [SC c " "; SR sp " "] ++ cased (bs "few") (bs "few")). split; [right; right; eexists _, _, _, _, _; split; [reflexivity|exact A]|].
    split; [rewrite !items_text_app, !self_text; cbn; rewrite app_nil_r; reflexivity|].
    apply Forall_app. split; [apply self_ok|]. apply Forall_app. split; [|apply self_ok].
    constructor; [apply (char_ok _ _ _ _ _ lt_blank Hc)|constructor; [apply (run_ok _ _ _ _ _ lt_blank Hs)|constructor]].
Qed.
Lemma later_search n k0 sp u k kw : spells n (Whole k0) -> blanks sp -> sp <> [] -> In (u, k) fragment_words -> In kw later_words -> plain_spaces (n ++ sp) ->
  exists m, search true time_later_re (n ++ sp ++ bs u ++ bs "\" ++ bs kw) = Some m /\ m_pos m = 0%nat /\ m_str m = n ++ sp ++ bs u ++ bs "\" ++ bs kw /\
    grp m 2 = n ++ sp ++ bs u ++ bs "\" /\ grp m 1 = [].
Proof.
  intros Sp B Ns I Ik Pl. apply Forall_app in Pl as [Pn Ps]. destruct (spells_whole n k0 Sp Pn) as (N & HN & TN & FN).
  pose proof (plain_run sp B Ps) as Rs. destruct sp as [|c sp]; [congruence|]. inversion Rs as [|? ? Hc Hs]; subst.
  pose proof (later_run N c sp u kw HN (in_map fst _ _ I) Ik) as R.
  assert (F : Forall (item_ok' true time_later_re) (later_items N c sp u kw)).
  { unfold later_items, bk. apply Forall_app. split; [exact FN|]. constructor; [apply (char_ok _ _ _ _ _ lt_blank Hc)|]. constructor; [apply (run_ok _ _ _ _ _ lt_blank Hs)|].
    apply Forall_app. split; [apply self_ok|]. apply Forall_app. split; [apply (self_ok _ (bs "\"))|apply self_ok]. }
  pose proof (open_search true time_later_re closed [] _ _ eq_refl F R) as S0. rewrite app_nil_r in S0.
  assert (Et : items_text (later_items N c sp u kw) = items_text N ++ (c :: sp) ++ bs u ++ bs "\" ++ bs kw).
  { unfold later_items, bk. rewrite items_text_app, !items_text_cons, !items_text_app, !self_text. reflexivity. }
  rewrite Et in S0. eexists. split; [exact S0|]. cbn [yres m_pos m_str]. split; [reflexivity|]. split; [exact Et|].
  split; [|reflexivity]. cbn [grp m_caps caps_text map fst snd cap_lookup Nat.eqb]. unfold later_group, bk. rewrite items_text_app, !items_text_cons, !items_text_app, !self_text. reflexivity.
Qed.

(** the group holds one fragment *)
Lemma one_fragment n q sp u k : spells n q -> small_quantity q -> blanks sp -> In (u, k) fragment_words ->
  extractDateTimeUnitFragments (n ++ sp ++ bs u ++ bs "\") = Ret (frag_put frags_empty k (quantity_float q)).
Proof.
  intros Sp Sm B I. unfold extractDateTimeUnitFragments, with_re. rewrite time_unit_compile. cbn [extract_loop].
  pose proof (low_lower _ (spells_low _ _ Sp)) as Ln.
  pose proof (low_lower _ (fragment_word_low _ _ I)) as Lu.
  pose proof (first_fragment n q n sp u k (bs u) [] backslash_next (bs "\") Sp Ln B I Lu (or_introl (conj eq_refl (or_intror eq_refl))) eq_refl) as F.
  cbn [items_text map List.concat] in F. rewrite app_nil_r in F. change ([] ++ bs "\") with (bs "\") in F. rewrite F.
  unfold collectDateTimeFragment. cbn [grp m_str m_caps cap_lookup Nat.eqb]. rewrite (amount_said n q n Sp Sm Ln). cbn [bind]. rewrite (unit_said u k (bs u) I Lu). cbn [bind].
  unfold substr_from. replace (n ++ sp ++ bs u ++ bs "\") with ((n ++ sp ++ bs u) ++ bs "\") by (rewrite <- !app_assoc; reflexivity).
  rewrite (proj2 (Nat.ltb_ge _ _)) by (rewrite !app_length; lia). rewrite skipn_app_exact. cbn [bind].
  rewrite app_length. cbn [List.length bs list_ascii_of_string]. rewrite Nat.add_comm. cbn [Nat.add extract_loop]. replace (search true time_unit_re (bs "\")) with (@None mres) by (vm_compute; reflexivity).
  reflexivity.
Qed.

(** ** the arithmetic *)
Lemma instant_shift t us n t' : real_instant t us -> seconds_after n t t' -> real_date (mdate t') -> ptime_of t us + n * SEC = ptime_of t' us /\ real_instant t' us.
Proof.
  intros H (V & B1 & B2 & B3 & E) R. split; [|split; [split; [exact R|auto]|apply H]]. unfold ptime_of, sec_count, dn_of, DAY, SEC in *. lia.
Qed.
Definition stamp (t : moment) (p : pc) : pc :=
  implyComponent "year" (cy (mdate t)) (implyComponent "month" (cm (mdate t)) (implyComponent "mday" (cd (mdate t)) (setSeconds (msec t) (setMinute (mmin t) (setHour (mhour t) p))))).
Lemma clock_shift catch sgn k n L t us t' res : unit_length k = Some L -> 0 < n <= 2 ^ 24 -> real_instant t us -> seconds_after (sgn * (n * L)) t t' -> real_date (mdate t') ->
  exists d x, frag_loop catch sgn (frag_put frags_empty k (FInt n)) frag_order (dn_of (mdate t), ptime_of t us) = Ret (d, x) /\
    frag_finish (frag_put frags_empty k (FInt n)) d x res = Ret (on_start (stamp t') res).
Proof.
  intros U Hn H Sa R. destruct (instant_shift t us _ t' H Sa R) as [Ex H']. exists (dn_of (mdate t)), (ptime_of t' us). rewrite <- Ex.
  assert (F2 : f2int (FInt n) = Ret n). { unfold f2int, INT_MIN, INT_MAX. destruct (_ || _) eqn:E0; [lia|reflexivity]. }
  assert (Pos : f_pos (FInt n) = true) by (cbn; lia).
  unfold unit_length in U. destruct (String.eqb_spec k "hour"); [|destruct (String.eqb_spec k "minute"); [|destruct (String.eqb_spec k "second"); [|discriminate]]]; subst k; injection U as <-.
  all: split; [unfold frag_order; cbn [frag_loop frag_put frags_empty String.eqb Ascii.eqb Bool.eqb]; unfold frag_shift; cbn [String.eqb Ascii.eqb Bool.eqb]; rewrite F2; cbn [bind];
       destruct catch; cbn [bind catch_oor]; unfold HOUR, MINUTE; do 2 f_equal; lia|].
  all: unfold frag_finish, frag_get; cbn [frag_put frags_empty String.eqb Ascii.eqb Bool.eqb]; rewrite Pos; cbn [f_pos Z.ltb Z.compare orb];
       rewrite Ex, (pt_hours_of _ _ H'), (pt_minutes_of _ _ H'), (pt_seconds_of _ _ H'); cbn [bind];
       rewrite (pt_date_of _ _ H'); cbn [bind]; rewrite d_day_real, d_month_real, d_year_real by exact R; reflexivity.
Qed.
Definition dated (c : cal) (p : pc) : pc := setYear (cy c) (setMonth (cm c) (set_mDay (cd c) p)).
Lemma calendar_shift catch sgn k n t us c res : sgn = 1 \/ sgn = -1 -> 0 < n <= 2 ^ 24 -> real_instant t us -> units_after k (sgn * n) (mdate t) c -> real_date c ->
  exists d x, frag_loop catch sgn (frag_put frags_empty k (FInt n)) frag_order (dn_of (mdate t), ptime_of t us) = Ret (d, x) /\
    frag_finish (frag_put frags_empty k (FInt n)) d x res = Ret (on_start (dated c) res).
Proof.
  intros Hs Hn H Ua R. exists (dn_of c), (ptime_of t us). pose proof (proj1 (proj1 H)) as Rt.
  assert (F2 : f2int (FInt n) = Ret n). { unfold f2int, INT_MIN, INT_MAX. destruct (_ || _) eqn:E0; [lia|reflexivity]. }
  assert (F3 : f2long (FInt n) = Ret n). { unfold f2long. destruct (_ || _) eqn:E0; [lia|reflexivity]. }
  assert (Pos : f_pos (FInt n) = true) by (cbn; lia).
  unfold units_after in Ua. destruct (String.eqb_spec k "day"); [|destruct (String.eqb_spec k "week"); [|destruct (String.eqb_spec k "month"); [|destruct (String.eqb_spec k "year"); [|contradiction]]]]; subst k.
  1,2: split; [unfold frag_order; cbn [frag_loop frag_put frags_empty String.eqb Ascii.eqb Bool.eqb]; unfold frag_shift; cbn [String.eqb Ascii.eqb Bool.eqb]; rewrite ?F2, ?F3; cbn [bind];
       destruct catch; cbn [bind catch_oor]; unfold add_days, add_weeks; destruct Ua as [_ Ua]; unfold dn_of in *; do 2 f_equal; lia|].
  3,4: split; [unfold frag_order; cbn [frag_loop frag_put frags_empty String.eqb Ascii.eqb Bool.eqb]; unfold frag_shift; cbn [String.eqb Ascii.eqb Bool.eqb]; rewrite ?F2, ?F3; cbn [bind];
       destruct Ua as [Ua Hb]; apply months_after_fun in Ua; subst c; unfold add_years;
       rewrite add_months_real; [destruct catch; cbn [bind catch_oor]; do 3 f_equal; lia|exact Rt|lia|]|].
  all: try (unfold frag_finish, frag_get; cbn [frag_put frags_empty String.eqb Ascii.eqb Bool.eqb]; rewrite Pos; cbn [f_pos Z.ltb Z.compare orb]; cbn [bind];
       rewrite d_day_real, d_month_real, d_year_real by exact R; reflexivity).
  all: apply R.
Qed.
