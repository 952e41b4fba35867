(** * ClockFacts: matches of the clock-time pattern *)
From Verif Require Import Base Regex RegexParse Calendar Components Utils Execute Spec View ParserSpec ClockSpec CalendarCycle CalendarFacts RegexFacts ResultFacts Template
  ExecuteFacts ParserRe MatchFacts FuelFacts LocateFacts HistoryFacts ParserFacts CasualFacts NumberFacts DeadlineFacts ISOFacts HolidayFacts P_TimeAgo P_TimeExpression.
From Coq Require Import ZifyBool ZifyNat ZifyN.
Open Scope string_scope.
Open Scope list_scope.
Open Scope Z_scope.

Lemma digit_run n r w : only true is_digit r = true -> (1 <= min_len r)%nat -> max_len r = Some n -> lang true r w -> digits w /\ (1 <= List.length w <= n)%nat.
Proof. intros O Mi Ma L. pose proof (min_len_ok _ _ _ L). pose proof (max_len_ok _ _ _ _ L Ma). split; [exact (only_ok _ _ _ _ O L)|lia]. Qed.
Ltac digit_run L := eapply digit_run in L; [|vm_compute; reflexivity|apply Nat.leb_le; vm_compute; reflexivity|vm_compute; reflexivity].

Lemma dot_inv w : low w -> lang true te_dot w -> dot_or_colon w.
Proof. intros Lw L. word_cases L; unfold dot_or_colon, colon_mark; auto. Qed.
Lemma col_inv w : low w -> lang true te_col w -> colon_mark w.
Proof. intros Lw L. word_cases L; unfold colon_mark; auto. Qed.
Lemma point_inv w : low w -> lang true te_point w -> w = bs ".".
Proof. intros Lw L. word_cases L; auto. Qed.
Lemma ampm_inv w : low w -> lang true te_ampm w -> exists k, marker_word w k.
Proof.
  intros Lw L. word_cases L.
  all: try solve [exists Am; match goal with |- marker_word ?w _ => apply (mw_am (string_of_list_ascii w)) end; cbn; tauto].
  all: try solve [exists Pm; match goal with |- marker_word ?w _ => apply (mw_pm (string_of_list_ascii w)) end; cbn; tauto].
  exists OClock. apply (mw_oclock x0). match goal with R : Forall _ x0 |- _ => revert R end. apply Forall_impl. intros c. unfold set_ok. cbn. destruct (is_word c); [discriminate|reflexivity].
Qed.

Definition caps_of (a b c : nat) (mm ss : bytes) (l : list (nat * bytes)) : Prop :=
  (l = [] /\ mm = [] /\ ss = []) \/ (l = [(a, mm)] /\ ss = []) \/ (l = [(b, ss); (a, mm)]) \/ exists f, l = [(c, f); (b, ss); (a, mm)].
Lemma minutes_inv (mark : bytes -> Prop) col a b c dd p t cs s' : low t -> groups col = [] -> groups dd = [] -> (forall w, low w -> lang true col w -> mark w) ->
  (forall w, lang true dd w -> digits w /\ (1 <= List.length w <= 2)%nat) ->
  mt true (ROpt true (RCat te_dot (RCat (RGrp a te_d12) (ROpt true (RCat col (RCat (RGrp b dd) (ROpt true (RCat te_point (RGrp c te_d16))))))))) (mkst p t cs) s' ->
  exists w mm ss l, t = w ++ s_rest s' /\ minutes_part mark w mm ss /\ s_caps s' = l ++ cs /\ caps_of a b c mm ss l.
Proof.
  intros Lw Gc Gd Hc Hd [->|M]; [exists [], [], [], []; repeat split; [constructor|left; auto]|].
  destruct M as (s1 & K & M). apply mt_plain_inv in K; [|reflexivity]. destruct K as (w1 & u1 & -> & L1 & ->).
  destruct M as (s2 & K & M). apply mt_grp_inv in K; [|reflexivity]. destruct K as (mm & u2 & -> & L2 & ->).
  assert (L1' : low w1) by (apply low_app in Lw; apply Lw). apply (dot_inv _ L1') in L1. digit_run L2. destruct L2 as [D2 N2].
  apply low_app in Lw as [_ Lw]. apply low_app in Lw as [_ Lw].
  destruct M as [->|M].
  { exists (w1 ++ mm), mm, [], [(a, mm)]. split; [cbn; rewrite <- app_assoc; reflexivity|]. split; [constructor; assumption|]. split; [reflexivity|right; left; auto]. }
  destruct M as (s3 & K & M). apply mt_plain_inv in K; [|exact Gc]. destruct K as (w3 & u3 & -> & L3 & ->). apply low_app in Lw as [L3' Lw]. apply (Hc _ L3') in L3.
  destruct M as (s4 & K & M). apply mt_grp_inv in K; [|exact Gd]. destruct K as (ss & u4 & -> & L4 & ->). apply Hd in L4 as [D4 N4]. apply low_app in Lw as [_ Lw].
  destruct M as [->|M].
  { exists (w1 ++ mm ++ w3 ++ ss ++ []), mm, ss, [(b, ss); (a, mm)]. split; [cbn; rewrite app_nil_r, <- !app_assoc; reflexivity|]. split; [apply mp_seconds; auto|]. split; [reflexivity|right; right; left; auto]. }
  destruct M as (s5 & K & M). apply mt_plain_inv in K; [|reflexivity]. destruct K as (w5 & u5 & -> & L5 & ->). apply low_app in Lw as [L5' Lw]. apply (point_inv _ L5') in L5. subst w5.
  apply mt_grp_inv in M; [|reflexivity]. destruct M as (fr & u6 & -> & L6 & ->). digit_run L6. destruct L6 as [D6 N6].
  exists (w1 ++ mm ++ w3 ++ ss ++ bs "." ++ fr), mm, ss, [(c, fr); (b, ss); (a, mm)]. split; [cbn; rewrite <- !app_assoc; reflexivity|].
  split; [apply mp_seconds; auto; right; exists fr; auto|]. split; [reflexivity|right; right; right; eauto].
Qed.
Lemma mark_inv n p t cs s' : low t -> mt true (ROpt true (te_mer n)) (mkst p t cs) s' ->
  exists q w k l, t = q ++ s_rest s' /\ mark_part q k /\ s_caps s' = l ++ cs /\ ((l = [] /\ w = [] /\ k = NoMarker) \/ (l = [(n, w)] /\ marker_word w k)).
Proof.
  intros Lw [->|M]; [exists [], [], NoMarker, []; repeat split; [constructor|left; auto]|].
  destruct M as (s1 & K & M). apply mt_plain_inv in K; [|reflexivity]. destruct K as (sp & u1 & -> & L1 & ->). apply SPs_blanks in L1.
  apply mt_grp_inv in M; [|reflexivity]. destruct M as (w & u2 & -> & L2 & ->). apply low_app in Lw as [_ Lw]. apply low_app in Lw as [Lw _].
  destruct (ampm_inv _ Lw L2) as (k & K). exists (sp ++ w), w, k, [(n, w)]. split; [cbn; rewrite <- app_assoc; reflexivity|]. split; [constructor; assumption|]. auto.
Qed.

(** a match of the pattern *)
Definition groups_say (m : mres) (gh gm gs gk : nat) (k : clock) : Prop :=
  grp m gh = ck_hour k /\ grp m gm = ck_min k /\ grp m gs = ck_sec k /\
  ((grp m gk = [] /\ ck_mark k = NoMarker) \/ marker_word (grp m gk) (ck_mark k)).
Lemma marker_nonempty w k : marker_word w k -> w <> [] /\ k <> NoMarker.
Proof. intros [v I|v I|s F]; [..|split; discriminate]; cbn in I; decompose [or] I; try contradiction; subst; split; discriminate. Qed.

Lemma hour_inv w : low w -> lang true te_hour w -> exists h, hour_says w h.
Proof.
  intros Lw L. destruct L as [L|L].
  - digit_run L. eexists. apply hs_digits; apply L.
  - assert (w = bs "noon" \/ w = bs "midnight") as [-> | ->]; [|eexists; constructor..]. 
    match type of L with lang true ?r _ => change (lang true r w) in L end. word_cases L; auto.
Qed.
Lemma to_sep_inv w : low w -> lang true te_sep2 w -> to_word w.
Proof. intros Lw L. unfold to_word. word_cases L; cbn; auto 10. Qed.
Lemma opening_inv w : low w -> lang true te_at w -> opening w.
Proof. intros Lw L. right. word_cases L; match goal with R : Forall _ ?x |- _ => exists x; apply space_run in R end; rewrite app_nil_r; (split; [assumption|]); first [left; reflexivity|right; reflexivity]. Qed.

Lemma clock_match tx m : search true time_expression_re tx = Some m -> low tx ->
  exists intro c1 k gap rest, m_str m = grp m 1 ++ intro ++ c1 ++ gap ++ rest /\ opening intro /\ clock_form colon_mark c1 k /\ groups_say m 2 3 4 6 k /\
    (List.length (ck_sec k) <> 1)%nat /\ (gap = [] \/ gap = bs " ") /\ grp m 7 = rest /\
    (rest = [] \/ exists k2, to_text rest k2 /\ groups_say m 10 11 12 14 k2).
Proof.
  intros H Lw. shape H. unfold groups_say, grp. rewrite C. clear C.
  unfold time_expression_re in M. destruct M as (s1 & K & M). apply mt_grp_inv in K; [|reflexivity]. destruct K as (w1 & u1 & E1 & L1 & ->).
  assert (Ls : low suf) by (unfold same in Es; rewrite Es; rewrite Et in Lw; apply low_app in Lw; apply Lw). rewrite E1 in Ls. apply low_app in Ls as [Lw1 Ls].
  destruct M as (s2 & K & M). 
  assert (Q : exists intro, u1 = intro ++ s_rest s2 /\ opening intro /\ s_caps s2 = [(1%nat, w1)]).
  { destruct K as [->|K]; [exists []; repeat split; left; reflexivity|]. apply mt_plain_inv in K; [|reflexivity]. destruct K as (w & u & -> & L & ->). apply low_app in Ls as [Ls _].
    exists w. repeat split. apply opening_inv; assumption. }
  clear K. destruct Q as (intro & E2 & Op & C2). destruct s2 as [p2 u2 c2]. cbn [Regex.s_rest Regex.s_caps] in E2, C2. subst c2. rewrite E2 in Ls. apply low_app in Ls as [_ Ls].
  destruct M as (s3 & K & M). apply mt_grp_inv in K; [|reflexivity]. destruct K as (h & u3 & E3 & L3 & ->). rewrite E3 in Ls. apply low_app in Ls as [Lh Ls]. apply (hour_inv _ Lh) in L3.
  destruct M as (s4 & K & M). assert (Hd2 : forall w, lang true te_d2 w -> digits w /\ (List.length w = 2)%nat).
  { intros w L. split; [exact (only_ok true is_digit te_d2 w eq_refl L)|]. pose proof (min_len_ok _ _ _ L). pose proof (max_len_ok _ _ _ 2%nat L eq_refl). cbn in *. lia. }
  unfold te_min in K.
  assert (K2 := K). apply (minutes_inv (fun b => colon_mark b)) in K; [|exact Ls|reflexivity|reflexivity|exact col_inv|intros w L; destruct (Hd2 w L); split; [assumption|lia]].
  destruct K as (mp & mm & ss & l4 & E4 & Mp & C4 & Q4). destruct s4 as [p4 u4 c4]. cbn [Regex.s_rest Regex.s_caps] in E4, C4. subst c4.
  assert (Len : (List.length ss <> 1)%nat).
  { destruct Q4 as [(-> & -> & ->)|[(-> & ->)|Q4]]; [cbn; lia..|].
    apply mt_word in K2 as (v & cs & _ & _ & _ & Ec & F). cbn [Regex.s_caps] in Ec. apply app_inv_tail in Ec. subst cs.
    rewrite Forall_forall in F. assert (I : In (4%nat, ss) l4) by (destruct Q4 as [-> | (f & ->)]; cbn; auto). apply F in I as (a & Ia & La). cbn in Ia.
    destruct Ia as [Ia|[Ia|[Ia|[]]]]; try discriminate. injection Ia as <-. apply Hd2 in La. cbn [snd] in La. lia. }
  clear K2. rewrite E4 in Ls. apply low_app in Ls as [_ Ls].
  destruct M as (s5 & K & M). apply mark_inv in K; [|exact Ls]. destruct K as (q & mw & k & l5 & E5 & Mk & C5 & Q5). destruct s5 as [p5 u5 c5]. cbn [Regex.s_rest Regex.s_caps] in E5, C5. subst c5.
  rewrite E5 in Ls. apply low_app in Ls as [_ Ls].
  destruct M as (s6 & [-> _] & M). destruct M as (s7 & K & M).
  assert (Q : exists gap, u5 = gap ++ s_rest s7 /\ (gap = [] \/ gap = bs " ") /\ s_caps s7 = l5 ++ l4 ++ (2%nat, h) :: [(1%nat, w1)]).
  { destruct K as [->|K]; [exists []; auto|]. apply mt_plain_inv in K; [|reflexivity]. destruct K as (w & u & -> & L & ->). exists w. split; [reflexivity|]. split; [|reflexivity].
    apply low_app in Ls as [Ls _]. right. clear - L Ls. word_cases L. reflexivity. }
  clear K. destruct Q as (gap & E7 & Hg & C7). destruct s7 as [p7 u7 c7]. cbn [Regex.s_rest Regex.s_caps] in E7, C7. subst c7. rewrite E7 in Ls. apply low_app in Ls as [_ Ls].
  exists intro, (h ++ mp ++ q), (Clock h mm ss k), gap.
  destruct M as [->|M].
  - exists []. cbn [Regex.s_rest Regex.s_caps] in Es |- *. unfold same in Es. rewrite E1, E2, E3, E4, E5, E7 in Es. 
    assert (Em : m_str m = w1 ++ intro ++ (h ++ mp ++ q) ++ gap ++ []). { apply (app_inv_tail u7). rewrite <- Es, app_nil_r, <- !app_assoc. reflexivity. }
    split; [rewrite Em; destruct Q4 as [(-> & -> & ->)|[(-> & ->)|[-> | (f & ->)]]], Q5 as [(-> & -> & ->)|(-> & Q5)]; reflexivity|].
    split; [exact Op|]. split; [exists mp, q; repeat split; assumption|].
    split; [|split; [exact Len|split; [exact Hg|split; [|left; reflexivity]]]].
    + destruct Q4 as [(-> & -> & ->)|[(-> & ->)|[-> | (f & ->)]]], Q5 as [(-> & -> & ->)|(-> & Q5)]; cbn; auto 10.
    + destruct Q4 as [(-> & -> & ->)|[(-> & ->)|[-> | (f & ->)]]], Q5 as [(-> & -> & ->)|(-> & Q5)]; reflexivity.
  - apply mt_grp_gen in M as (s8 & rest & M & E8 & _ & ->). cbn [Regex.s_rest Regex.s_caps] in Es |- *.
    exists rest. unfold same in Es. rewrite E1, E2, E3, E4, E5, E7, E8 in Es. 
    assert (Em : m_str m = w1 ++ intro ++ (h ++ mp ++ q) ++ gap ++ rest). { apply (app_inv_tail (s_rest s8)). rewrite <- Es, <- !app_assoc. reflexivity. }
    unfold te_to in M. destruct M as (t1 & K & M). apply mt_grp_inv in K; [|reflexivity]. destruct K as (b1 & v1 & F1 & N1 & ->). rewrite F1 in Ls. apply low_app in Ls as [_ Ls].
    assert (B1 : blanks b1) by (destruct N1 as [->|N1]; [constructor|apply SPs_blanks in N1; exact N1]).
    destruct M as (t2 & K & M). apply mt_grp_inv in K; [|reflexivity]. destruct K as (tw & v2 & F2 & N2 & ->). rewrite F2 in Ls. apply low_app in Ls as [Lt Ls]. apply (to_sep_inv _ Lt) in N2.
    destruct M as (t3 & K & M). apply mt_plain_inv in K; [|reflexivity]. destruct K as (b2 & v3 & F3 & N3 & ->). rewrite F3 in Ls. apply low_app in Ls as [_ Ls]. apply SPs_blanks in N3.
    destruct M as (t4 & K & M). apply mt_grp_inv in K; [|reflexivity]. destruct K as (h2 & v4 & F4 & N4 & ->). rewrite F4 in Ls. apply low_app in Ls as [_ Ls]. digit_run N4. destruct N4 as [D4 N4].
    destruct M as (t5 & K & M). unfold te_min2 in K.
    apply (minutes_inv (fun b => dot_or_colon b)) in K; [|exact Ls|reflexivity|reflexivity|exact dot_inv|intros w L; digit_run L; exact L].
    destruct K as (mp2 & mm2 & ss2 & l5' & E5' & Mp2 & C5 & Q5'). destruct t5 as [p5' v5 c5]. cbn [Regex.s_rest Regex.s_caps] in E5', C5. subst c5. rewrite E5' in Ls. apply low_app in Ls as [_ Ls].
    destruct M as (t6 & K & M). apply mark_inv in K; [|exact Ls]. destruct K as (q2 & mw2 & k2 & l6 & E6 & Mk2 & C6 & Q6). destruct t6 as [p6 v6 c6]. cbn [Regex.s_rest Regex.s_caps] in E6, C6. subst c6.
    apply mt_WB in M as [_ ->]. cbn [Regex.s_rest Regex.s_caps] in *.
    assert (Er : rest = b1 ++ tw ++ b2 ++ h2 ++ mp2 ++ q2). { apply (app_inv_tail v6). rewrite <- E8, F1, F2, F3, F4, E5', E6, <- !app_assoc. reflexivity. }
    split; [rewrite Em; destruct Q4 as [(-> & -> & ->)|[(-> & ->)|[-> | (f & ->)]]], Q5 as [(-> & -> & ->)|(-> & Q5)], Q5' as [(-> & -> & ->)|[(-> & ->)|[-> | (f2 & ->)]]], Q6 as [(-> & -> & ->)|(-> & Q6)]; reflexivity|].
    split; [exact Op|]. split; [exists mp, q; repeat split; assumption|].
    split; [|split; [exact Len|split; [exact Hg|split; [reflexivity|right; exists (Clock h2 mm2 ss2 k2); split]]]].
    + destruct Q4 as [(-> & -> & ->)|[(-> & ->)|[-> | (f & ->)]]], Q5 as [(-> & -> & ->)|(-> & Q5)], Q5' as [(-> & -> & ->)|[(-> & ->)|[-> | (f2 & ->)]]], Q6 as [(-> & -> & ->)|(-> & Q6)]; cbn; auto 10.
    + exists b1, tw, b2, (h2 ++ mp2 ++ q2). do 5 (split; [first [assumption|rewrite Er; reflexivity]|]). exists mp2, q2. cbn. repeat split; auto. eexists. apply hs_digits; assumption.
    + destruct Q4 as [(-> & -> & ->)|[(-> & ->)|[-> | (f & ->)]]], Q5 as [(-> & -> & ->)|(-> & Q5)], Q5' as [(-> & -> & ->)|[(-> & ->)|[-> | (f2 & ->)]]], Q6 as [(-> & -> & ->)|(-> & Q6)]; cbn; auto 10.
Qed.

(** ** What the code does with the groups *)
Lemma hour_value w h : hour_says w h -> clock_hour w = Ret h.
Proof.
  intros [| |v D L]; [reflexivity..|]. unfold clock_hour.
  destruct (beq v (bs "noon")) eqn:B; [apply beq_eq in B; subst v; inversion D; discriminate|]. destruct (beq v (bs "midnight")) eqn:B'; [apply beq_eq in B'; subst v; inversion D; discriminate|].
  apply stoi_short; [exact D|lia].
Qed.
Lemma hour_nonneg w h : hour_says w h -> 0 <= h.
Proof. intros [| |v D L]; [lia..|]. apply decimal_bounds. exact D. Qed.
Lemma hour_inj w h h' : hour_says w h -> hour_says w h' -> h = h'.
Proof. intros A B. apply hour_value in A, B. rewrite A in B. injection B as ->. reflexivity. Qed.
Lemma minute_value w h mm : hour_says w h -> mm = [] \/ digits mm /\ (1 <= List.length mm <= 2)%nat -> exists h' mi, clock_minute h mm = Ret (h', mi) /\ time_says w mm h' mi.
Proof.
  intros Hh [->|[D L]]; unfold clock_minute.
  - cbn [is_nil]. destruct (100 <? h) eqn:E; eexists; eexists; (split; [reflexivity|constructor; [exact Hh|lia]]).
  - rewrite stoi_short by (auto; lia). destruct mm as [|c mm]; [cbn in L; lia|]. cbn [is_nil bind]. eexists; eexists. split; [reflexivity|]. constructor; assumption.
Qed.
Lemma time_inj w mm h mi h' mi' : time_says w mm h mi -> time_says w mm h' mi' -> h = h' /\ mi = mi'.
Proof.
  intros A B. inversion A; subst; inversion B; subst; try (cbn in *; lia); 
    match goal with X : hour_says ?w ?a, Y : hour_says ?w ?b |- _ => pose proof (hour_inj _ _ _ X Y); subst end; auto; lia.
Qed.
Ltac Zify.zify_post_hook ::= Z.div_mod_to_equations.
Lemma time_nonneg w mm h mi : time_says w mm h mi -> 0 <= h /\ 0 <= mi.
Proof.
  intros [hw m k H D L|hw k H|hw k H]; pose proof (hour_nonneg _ _ H); try lia. pose proof (decimal_bounds _ D). lia.
Qed.
Ltac Zify.zify_post_hook ::= idtac.
Lemma marker_hour w k h : marker_word w k -> meridiem (first_char w) h = on_clock k h.
Proof.
  intros [v I|v I|s F]; [| |unfold meridiem, first_char, on_clock; reflexivity]; cbn in I; decompose [or] I; try contradiction; subst v; unfold meridiem, first_char, on_clock; cbn; destruct (h =? 12) eqn:E; try reflexivity; try lia.
Qed.
Lemma minutes_shape mark p mm ss : minutes_part mark p mm ss -> (mm = [] \/ digits mm /\ (1 <= List.length mm <= 2)%nat) /\ (ss = [] \/ digits ss /\ (1 <= List.length ss <= 2)%nat).
Proof. intros [|a m A D L|a m b s f A D L B D' L' F]; auto. Qed.

(** the components of a time of day on the reference date *)
Definition stamp (t : moment) (h mi : Z) (ss : bytes) : pc :=
  implyComponent "year" (cy (mdate t)) (implyComponent "month" (cm (mdate t)) (implyComponent "mday" (cd (mdate t))
    (setMinute mi (setHour h (match ss with [] => pc_default | _ => setSeconds (decimal ss) pc_default end))))).
Definition second_only (ss : bytes) : pc := match ss with [] => pc_default | _ => setSeconds (decimal ss) pc_default end.
Lemma no_single_word tx m : search true time_expression_re tx = Some m -> single_word_tail tx (m_pos m) = Ret false.
Proof.
  intros Sr. unfold single_word_tail. destruct (Nat.ltb 0 (m_pos m)) eqn:Z; [|reflexivity]. apply Nat.ltb_lt in Z.
  assert (L : (m_pos m + 1 <= List.length tx)%nat).
  { destruct (search_split _ _ _ _ Sr) as (pre & post & E & P & L & _). apply min_len_ok in L. assert (1 <= min_len time_expression_re)%nat by (apply Nat.leb_le; vm_compute; reflexivity). rewrite E, !app_length. lia. }
  rewrite substr_from_ok by lia. cbn [bind]. destruct (skipn (m_pos m - 1) tx) as [|c [|c' l]] eqn:E; [reflexivity| |reflexivity].
  apply (f_equal (@List.length ascii)) in E. rewrite skipn_length in E. cbn in E. lia.
Qed.

Lemma clock_start e g tx m t us idx intro c1 k gap rest : real_instant t us -> search true time_expression_re tx = Some m ->
  m_str m = grp m 1 ++ intro ++ c1 ++ gap ++ rest -> clock_form colon_mark c1 k -> groups_say m 2 3 4 6 k -> grp m 7 = rest ->
  let r0 := res_new (ptime_of t us) idx (intro ++ c1 ++ gap ++ rest) in
  let X := time_expression_extract e g tx m (ptime_of t us) idx in
  (~ seconds_fine k /\ X = Ret r0) \/
  (seconds_fine k /\ (forall h mi, ~ clock_time k h mi) /\ X = Ret (with_start (second_only (ck_sec k)) r0)) \/
  (seconds_fine k /\ exists h mi, clock_time k h mi /\
     let r1 := setTag TTimeExpression (with_start (stamp t (on_clock (ck_mark k) h) mi (ck_sec k)) r0) in
     X = if is_nil rest then Ret r1 else time_expression_to e m (ptime_of t us) (on_clock (ck_mark k) h) r1).
Proof.
  intros H Sr E (p & q & _ & (h0 & Hh) & Mp & Mk) (G2 & G3 & G4 & G6) G7 r0 X. unfold X, time_expression_extract. change (grp m 0) with (m_str m). rewrite E, substr_from_ok by (rewrite app_length; lia).
  rewrite skipn_app, skipn_all, Nat.sub_diag. cbn [skipn app bind]. rewrite (no_single_word _ _ Sr). cbn [bind]. fold r0.
  destruct (minutes_shape _ _ _ _ Mp) as [Qm Qs]. rewrite G4.
  assert (Sx : (if is_nil (ck_sec k) then Ret None else s <- stoi (ck_sec k) ;; Ret (Some s)) = Ret (match ck_sec k with [] => None | ss => Some (decimal ss) end)).
  { destruct Qs as [->|[D L]]; [reflexivity|]. rewrite stoi_short by (auto; lia). destruct (ck_sec k); [cbn in L; lia|reflexivity]. }
  rewrite Sx. cbn [bind]. clear Sx.
  destruct (match match ck_sec k with [] => None | ss => Some (decimal ss) end with Some s => 60 <=? s | None => false end) eqn:S60.
  { left. split; [|reflexivity]. unfold seconds_fine. destruct (ck_sec k); [discriminate|]. intros [N|N]; [discriminate|lia]. }
  assert (Sf : seconds_fine k). { unfold seconds_fine. destruct (ck_sec k); [auto|right; lia]. }
  right. rewrite G2, (hour_value _ _ Hh). cbn [bind]. rewrite G3. destruct (minute_value _ _ _ Hh Qm) as (h & mi & Em & Ts). rewrite Em. cbn [bind].
  assert (Rs : match match ck_sec k with [] => None | ss => Some (decimal ss) end with Some s => on_start (setSeconds s) r0 | None => r0 end = with_start (second_only (ck_sec k)) r0).
  { unfold second_only. destruct (ck_sec k); reflexivity. }
  rewrite Rs. clear Rs.
  assert (Nk : is_nil (grp m 6) = true <-> ck_mark k = NoMarker).
  { destruct G6 as [[-> ->]|G6]; [tauto|]. destruct (marker_nonempty _ _ G6). destruct (grp m 6); [congruence|]. cbn. split; [discriminate|congruence]. }
  assert (No : (60 <= mi \/ 24 < h \/ ck_mark k <> NoMarker /\ 12 < h) -> forall h' mi', ~ clock_time k h' mi').
  { intros O h' mi' (T' & A & B & C). destruct (time_inj _ _ _ _ _ _ Ts T') as [-> ->]. destruct O as [O|[O|[O1 O]]]; [lia..|]. specialize (C O1). lia. }
  destruct (60 <=? mi) eqn:C1; [left; split; [exact Sf|]; split; [apply No; left; lia|reflexivity]|].
  destruct (24 <? h) eqn:C2; [left; split; [exact Sf|]; split; [apply No; right; left; lia|reflexivity]|].
  destruct (negb (is_nil (grp m 6)) && (12 <? h)) eqn:C3.
  { left. apply andb_prop in C3 as [C3 C3']. split; [exact Sf|]. split; [|reflexivity]. apply No. right. right. split; [|lia]. intros N. apply Nk in N. rewrite N in C3. discriminate. }
  right. split; [exact Sf|]. exists h, mi. split.
  { split; [exact Ts|]. split; [lia|]. split; [lia|]. intros N. destruct (is_nil (grp m 6)) eqn:Z; [exfalso; apply N, Nk; reflexivity|]. cbn in C3. lia. }
  rewrite (pt_date_of _ _ H). cbn [bind]. rewrite d_day_real, d_month_real, d_year_real by apply H. cbn [bind]. rewrite G7.
  assert (Hm : (if is_nil (grp m 6) then h else meridiem (first_char (grp m 6)) h) = on_clock (ck_mark k) h).
  { destruct G6 as [[-> ->]|G6]; [reflexivity|]. destruct (marker_nonempty _ _ G6) as [N _]. rewrite <- (marker_hour _ _ h G6). destruct (grp m 6); [congruence|reflexivity]. }
  rewrite Hm. reflexivity.
Qed.

(** ** The second time of a range *)
Definition sign3 : re := Eval vm_compute in pat "\+|\-".
Definition digits34 : re := Eval vm_compute in pat "\d{3,4}".
Definition zone_re : re := RCat RBol (RCat SPs (RCat (RGrp 1 sign3) (RCat SPs (RCat digits34 REol)))).
Lemma zone_compile : compile (bs "^\s*(\+|\-)\s*\d{3,4}$") = Some zone_re. Proof. vm_compute. reflexivity. Qed.
Lemma sign_inv w : lang false sign3 w <-> w = bs "+" \/ w = bs "-".
Proof.
  split.
  - intros [(c & -> & H)|(c & -> & H)]; [left|right].
    + pose proof (forall_ascii (fun c => implb (set_ok false false [CChar "+"] c) (Ascii.eqb c "+"))) as P. specialize (P ltac:(vm_compute; reflexivity) c). cbn beta in P. rewrite H in P. cbn in P. apply Ascii.eqb_eq in P. subst. reflexivity.
    + pose proof (forall_ascii (fun c => implb (set_ok false false [CChar "-"] c) (Ascii.eqb c "-"))) as P. specialize (P ltac:(vm_compute; reflexivity) c). cbn beta in P. rewrite H in P. cbn in P. apply Ascii.eqb_eq in P. subst. reflexivity.
  - intros [-> | ->]; [left; exists "+"%char|right; exists "-"%char]; split; reflexivity.
Qed.
Lemma digits34_iff w : lang false digits34 w <-> digits w /\ (3 <= List.length w <= 4)%nat.
Proof.
  split.
  - intros L. split; [exact (only_ok false is_digit digits34 w eq_refl L)|]. pose proof (min_len_ok _ _ _ L). pose proof (max_len_ok _ _ _ 4%nat L eq_refl). cbn in *. lia.
  - intros [D L]. destruct w as [|a [|b [|c l]]]; [cbn in L; lia..|]. inversion D as [|? ? Ha D1]; subst. inversion D1 as [|? ? Hb D2]; subst. inversion D2 as [|? ? Hc D3]; subst.
    assert (Cl : forall x, is_digit x = true -> lang false (RSet false [CClass false KDigit]) [x]).
    { intros x Hx. exists x. split; [reflexivity|]. pose proof (forall_ascii (fun c => implb (is_digit c) (set_ok false false [CClass false KDigit] c))) as P. specialize (P ltac:(vm_compute; reflexivity) x). cbn beta in P. rewrite Hx in P. exact P. }
    exists [a], (b :: c :: l). split; [reflexivity|]. split; [apply Cl; assumption|]. exists [b], (c :: l). split; [reflexivity|]. split; [apply Cl; assumption|].
    exists [c], l. split; [reflexivity|]. split; [apply Cl; assumption|]. destruct l as [|d [|? ?]]; [left; reflexivity| |cbn in L; lia]. right. inversion D3; subst. apply Cl. assumption.
Qed.
Lemma zone_match tx : (exists m, full_match false zone_re tx = Some m) <-> looks_like_zone tx.
Proof.
  split.
  - intros [m H]. unfold full_match in H. destruct (rm false zone_re (mkst None tx []) _) as [s|] eqn:E; [|discriminate].
    apply rm_sound in E as (s' & M & K). destruct (s_rest s') as [|? ?] eqn:R; [|discriminate]. unfold zone_re in M. destruct M as (s1 & [_ ->] & M).
    destruct M as (s2 & A & M). apply mt_plain_inv in A; [|reflexivity]. destruct A as (b1 & u1 & -> & L1 & ->).
    destruct M as (s3 & A & M). apply mt_grp_inv in A; [|reflexivity]. destruct A as (sg & u2 & -> & L2 & ->).
    destruct M as (s4 & A & M). apply mt_plain_inv in A; [|reflexivity]. destruct A as (b2 & u3 & -> & L3 & ->).
    destruct M as (s5 & A & M). apply mt_plain_inv in A; [|reflexivity]. destruct A as (d & u4 & -> & L4 & ->). destruct M as [_ ->]. cbn in R. subst u4. rewrite app_nil_r.
    apply SPs_blanks in L1, L3. apply sign_inv in L2. apply digits34_iff in L4. exists b1, sg, b2, d. tauto.
  - intros (b1 & sg & b2 & d & -> & B1 & Hs & B2 & D & Ld).
    assert (M : exists s', mt false zone_re (mkst None (b1 ++ sg ++ b2 ++ d) []) s' /\ s_rest s' = []).
    { rewrite <- (app_nil_r d). eexists. split.
      - eexists. split; [split; reflexivity|]. eexists. split; [apply plain_mt; [reflexivity|apply blanks_SPs; exact B1]|].
        eexists. split; [apply mt_grp; [reflexivity|apply sign_inv; exact Hs]|]. eexists. split; [apply plain_mt; [reflexivity|apply blanks_SPs; exact B2]|].
        eexists. split; [apply plain_mt; [reflexivity|apply digits34_iff; auto]|]. split; reflexivity.
      - reflexivity. }
    destruct M as (s' & M & R). unfold full_match. destruct (rm false zone_re _ _) as [s|] eqn:E; [eauto|].
    pose proof (rm_none _ _ _ _ E _ M) as K. cbn beta in K. rewrite R in K. discriminate.
Qed.

(** the choice of the second hour, and whether the first is moved to the afternoon *)
Definition to_choice (e : env) (w6 w14 : bytes) (hh h2 : Z) : outcome (Z * bool) :=
  if negb (is_nil w14) then
    c1 <- read_dangling e (first_char w14) ;;
    let h2 := if Ascii.eqb c1 "a" then (if h2 =? 12 then 0 else h2) else h2 in
    c2 <- read_dangling e (first_char w14) ;;
    if Ascii.eqb c2 "p" then Ret (if h2 =? 12 then h2 else h2 + 12, is_nil w6 && negb (hh =? 12)) else Ret (h2, false)
  else c <- (if is_nil w6 then read_uninit e else Ret (first_char w6)) ;; Ret (meridiem c h2, false).
Definition ended (t : moment) (h2 mi2 : Z) (ss : bytes) (r : result) : result := with_end (stamp t h2 mi2 ss) (makeEndDateValid r).
Lemma clock_end e m t us rest k k2 hh r1 : real_instant t us -> r_endc r1 = pc_default -> grp m 7 = rest -> to_text rest k2 -> groups_say m 10 11 12 14 k2 ->
  (grp m 6 = [] /\ ck_mark k = NoMarker) \/ marker_word (grp m 6) (ck_mark k) ->
  let X := time_expression_to e m (ptime_of t us) hh r1 in
  ((looks_like_zone rest \/ forall h2 mi2, ~ clock_time k2 h2 mi2) /\ X = Ret r1) \/
  (~ looks_like_zone rest /\ exists h2 mi2, clock_time k2 h2 mi2 /\
    X = (x <- to_choice e (grp m 6) (grp m 14) hh h2 ;;
         let r := if snd x : bool then on_start (setHour (hh + 12)) r1 else r1 in
         Ret (if match ck_sec k2 with [] => true | ss => decimal ss <? 60 end then ended t (fst x) mi2 (ck_sec k2) r else r))).
Proof.
  intros H En G7 (s1 & w & s2 & r & Er & B1 & Tw & B2 & Dh & p & q & _ & (h0 & Hh) & Mp & Mk) (G10 & G11 & G12 & G14) G6 X.
  unfold X, time_expression_to. unfold with_re. rewrite zone_compile, G7.
  destruct (full_match false zone_re rest) as [mz|] eqn:F; [left; split; [left; apply zone_match; eauto|reflexivity]|].
  assert (Nz : ~ looks_like_zone rest) by (intros Z; apply zone_match in Z as [mz Z]; congruence).
  destruct (minutes_shape _ _ _ _ Mp) as [Qm Qs]. rewrite G10, (hour_value _ _ Hh). cbn [bind]. rewrite G11. destruct (minute_value _ _ _ Hh Qm) as (h2 & mi2 & Em & Ts). rewrite Em. cbn [bind].
  assert (No : (60 <= mi2 \/ 24 < h2 \/ ck_mark k2 <> NoMarker /\ 12 < h2) -> forall h' mi', ~ clock_time k2 h' mi').
  { intros O h' mi' (T' & A & B & C). destruct (time_inj _ _ _ _ _ _ Ts T') as [-> ->]. destruct O as [O|[O|[O1 O]]]; [lia..|]. specialize (C O1). lia. }
  destruct ((60 <=? mi2) || (24 <? h2)) eqn:C1; [left; split; [right; apply No; lia|reflexivity]|].
  assert (Fin : forall h' r, r_endc r = pc_default ->
    (if is_nil (grp m 12) then
        d <- pt_date (ptime_of t us) ;; dd <- d_day d ;; mo <- d_month d ;; y <- d_year d ;;
        Ret (on_end (fun p => implyComponent "year" y (implyComponent "month" mo (implyComponent "mday" dd (setMinute mi2 (setHour h' p))))) (makeEndDateValid r))
      else s <- stoi (grp m 12) ;;
           if (60 <=? s) || (s <? 0) then Ret r
           else d <- pt_date (ptime_of t us) ;; dd <- d_day d ;; mo <- d_month d ;; y <- d_year d ;;
             Ret (on_end (fun p => implyComponent "year" y (implyComponent "month" mo (implyComponent "mday" dd (setMinute mi2 (setHour h' p))))) (makeEndDateValid (on_end (setSeconds s) r))))
    = Ret (if match ck_sec k2 with [] => true | ss => decimal ss <? 60 end then ended t h' mi2 (ck_sec k2) r else r)).
  { intros h' r' Er'. rewrite G12, (pt_date_of _ _ H). cbn [bind]. rewrite d_day_real, d_month_real, d_year_real by apply H. cbn [bind]. unfold ended, stamp.
    destruct Qs as [->|[D L]]; [cbn [is_nil]; unfold on_end; cbn [makeEndDateValid r_endc]; rewrite Er'; reflexivity|].
    rewrite stoi_short by (auto; lia). destruct (ck_sec k2) as [|c0 ss]; [cbn in L; lia|]. cbn [is_nil bind]. pose proof (decimal_bounds _ D) as [P _].
    destruct ((60 <=? decimal (c0 :: ss)) || (decimal (c0 :: ss) <? 0)) eqn:Z; [replace (decimal (c0 :: ss) <? 60) with false by lia; reflexivity|].
    replace (decimal (c0 :: ss) <? 60) with true by lia. unfold on_end. cbn [makeEndDateValid with_end r_endc]. rewrite Er'. reflexivity. }
  destruct (negb (is_nil (grp m 14)) && (12 <? h2)) eqn:C2.
  { left. apply andb_prop in C2 as [C2 C3]. split; [right; apply No; right; right; split; [|lia]|rewrite C2, C3; reflexivity].
    destruct G14 as [[G14 _]|G14]; [rewrite G14 in C2; discriminate|]. apply (marker_nonempty _ _ G14). }
  right. split; [exact Nz|]. exists h2, mi2. split.
  { split; [exact Ts|]. split; [lia|]. split; [lia|]. intros N. destruct G14 as [[_ G14]|G14]; [congruence|]. destruct (marker_nonempty _ _ G14) as [N' _]. destruct (grp m 14); [congruence|]. cbn in C2. lia. }
  unfold to_choice. destruct (negb (is_nil (grp m 14))) eqn:N14.
  - cbn [andb] in C2. rewrite C2. destruct (read_dangling e (first_char (grp m 14))) as [c1| | | |]; try reflexivity. cbn [bind].
    set (h2' := if Ascii.eqb c1 "a" then _ else _). destruct (Ascii.eqb c1 "p"); [|cbn [bind fst snd]; rewrite Fin by assumption; reflexivity].
    cbn [bind fst snd]. destruct (is_nil (grp m 6) && negb (hh =? 12)); rewrite Fin by assumption; reflexivity.
  - destruct (if is_nil (grp m 6) then read_uninit e else Ret (first_char (grp m 6))) as [c1| | | |]; try reflexivity. cbn [bind fst snd]. rewrite Fin by assumption. reflexivity.
Qed.
