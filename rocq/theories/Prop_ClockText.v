(** * Clock times are found wherever they stand (C93) *)
From Verif Require Import Base Regex RegexParse Calendar Components Utils Execute Spec View ParserSpec ClockSpec ClockTextSpec CalendarCycle CalendarFacts RegexFacts ResultFacts
  ExecuteFacts ParserRe MatchFacts LocateFacts ParserFacts ClockFacts FoundFacts FoundClock Main P_TimeExpression Prop_Execute Prop_Casual Prop_Ago Prop_Clock.
From Coq Require Import ZifyBool ZifyNat ZifyN.
Open Scope string_scope.
Open Scope list_scope.
Open Scope Z_scope.

Lemma words_phrase c k q : clock_words c k q -> clock_phrase c k.
Proof. intros (p & E & Hh & Mp & Ls & Mk). exists p, q. do 4 (split; [assumption|]). destruct Mk as [Mk|(sp & w & Eq & B & I)]; [left; exact Mk|right]. exists sp, w. split; [exact Eq|]. split; [exact B|apply full_marks_incl; exact I]. Qed.

Lemma clock_stands : forall e g text t us rs pre c k q post h mi, sane e -> real_instant t us -> Z.of_nat (List.length text) < 2 ^ 32 ->
  to_lower text = pre ++ c ++ post -> clock_words c k q -> clear_before pre -> clear_after q post -> clock_time k h mi -> seconds_fine k ->
  x_res (execute e time_expression g text (ptime_of t us)) = Ret rs ->
  exists res y lead intro gap rest, In res rs /\ pre = y ++ lead ++ intro /\ lead_sign lead /\ opening intro /\ post = gap ++ rest /\ gap = gap_after post /\
    getIndex res = Z.of_nat (List.length y) /\ r_text res = intro ++ c ++ gap /\ has_end res = false /\ at_time t k (on_clock (ck_mark k) h) mi (r_start res) /\
    tag_is TTimeExpression res = true /\ r_tags res TExtractTZ = None.
Proof.
  intros e g text t us rs pre c k q post h mi He H Hn E Cw [Hp Nc] (St & Nr & Nm) Ct Sf X.
  pose proof (execute_scan e time_expression g text (ptime_of t us) rs He (nonempty_all _ in_time_expression) X) as Sc. rewrite time_expression_compile in Sc. destruct Sc as (l & Sc & ->).
  destruct (clock_scanned e (ptime_of t us) (to_lower text) pre c k q post E (low_to_lower _) Hp Nc Cw St Nr Nm _ _ _ _ Sc ltac:(lia))
    as (off & m & res & g1 & g2 & y & w0 & intro & gap & rest & A1 & A2 & A3 & A4 & A5 & A6 & A7 & A8 & A9 & A10 & Sm & Xr & I).
  cbn [p_extract time_expression] in Xr. unfold pure_extract in Xr. injection Xr as _ Xr.
  pose proof (clock_start e g1 _ m t us (Z.of_nat (off + m_pos m)) intro c k gap [] H Sm) as Q. rewrite A10, app_nil_r in Q. specialize (Q A5 (phrase_form _ _ (words_phrase _ _ _ Cw)) A8 A9). cbv zeta in Q.
  destruct Q as [[N _]|[(_ & N & _)|(_ & h' & mi' & Ct' & Q)]]; [contradiction|exfalso; exact (N _ _ Ct)|].
  assert (h' = h /\ mi' = mi) as [-> ->]. { destruct Ct as [A _], Ct' as [B _]. exact (time_inj _ _ _ _ _ _ B A). }
  cbn [is_nil] in Q. rewrite Q in Xr. apply RelativeFacts.ret_inj in Xr.
  exists (res_copy res), y, w0, intro, gap, rest. split.
  { unfold kept. apply in_map. apply filter_In. split; [apply in_map_iff; exists ((off + m_pos m)%nat, m, res); auto|]. rewrite <- Xr. apply (real_month_possible _ (cm (mdate t))); [|apply H]. cbn [r_start setTag with_start]. destruct (ck_sec k); reflexivity. }
  do 5 (split; [assumption|]). rewrite <- Xr. split.
  { unfold getIndex. cbn [r_index res_copy setTag with_start res_new]. rewrite A2. apply u32_small. assert (Ln : List.length (to_lower text) = List.length text) by (unfold to_lower; apply map_length). rewrite E, A1, !app_length in Ln. lia. }
  split; [reflexivity|]. split; [reflexivity|]. split; [apply stamp_at; exact Sf|]. split; reflexivity.
Qed.
(** A clock time [c] standing after a blank and not after "to", "-", "~", "–", "〜" or "?", followed by a sign that ends it: whatever else the text contains and
    whatever was parsed before, if the parser returns, it returns a result for this time. Its text is the time with the "at" or "from" before it and at most one space
    after it; its position is where that text begins, minus the one blank or "t" before it; it means the hour and minute written, on the reference date. *)
Theorem C93_clock_times_stand : forall e g text t us rs pre c k q post h mi, sane e -> real_instant t us -> Z.of_nat (List.length text) < 2 ^ 32 ->
  to_lower text = pre ++ c ++ post -> clock_words c k q -> clear_before pre -> clear_after q post -> clock_time k h mi -> seconds_fine k ->
  x_res (execute e time_expression g text (ptime_of t us)) = Ret rs ->
  exists res y lead intro gap rest, In res rs /\ pre = y ++ lead ++ intro /\ lead_sign lead /\ opening intro /\ post = gap ++ rest /\ gap = gap_after post /\
    getIndex res = Z.of_nat (List.length y) /\ r_text res = intro ++ c ++ gap /\ has_end res = false /\ at_time t k (on_clock (ck_mark k) h) mi (r_start res) /\ tag_is TTimeExpression res = true.
Proof.
  intros e g text t us rs pre c k q post h mi He H Hn E Cw Cb Ca Ct Sf X.
  destruct (clock_stands e g text t us rs pre c k q post h mi He H Hn E Cw Cb Ca Ct Sf X) as (res & y & lead & intro & gap & rest & A1 & A2 & A3 & A4 & A5 & A6 & A7 & A8 & A9 & A10 & A11 & _).
  exists res, y, lead, intro, gap, rest. auto 20.
Qed.
Print Assumptions C93_clock_times_stand.

(** what is clear, by one character *)
Lemma clear_letter a c s : blanks s -> s <> [] -> is_space c = false -> ~ In c ["-"; "147"; "~"; "156"; "o"; "?"]%char -> clear_before (a ++ c :: s).
Proof.
  intros B Ns Hc N. split.
  { right. destruct (exists_last Ns) as (s' & b & Es). exists (a ++ c :: s'), b. split; [rewrite Es, <- app_assoc; reflexivity|]. unfold blanks in B. rewrite Es in B. apply Forall_app in B as [_ B]. inversion B; assumption. }
  intros (x & w & s2 & E & Tw & B2). 
  assert (F : exists w' d, w = w' ++ [d] /\ is_space d = false /\ In d ["-"; "147"; "~"; "156"; "o"; "?"]%char).
  { unfold to_word in Tw. cbn [In] in Tw. decompose [or] Tw; try contradiction; subst w; match goal with |- context [?l = _ ++ _] => let l' := eval vm_compute in l in change l with l' end;
    [exists [], "-"%char|exists ["226"; "128"]%char, "147"%char|exists [], "~"%char|exists ["227"; "128"]%char, "156"%char|exists ["t"%char], "o"%char|exists [], "?"%char]; (split; [reflexivity|split; [reflexivity|cbn; tauto]]). }
  destruct F as (w' & d & -> & Hd & I). assert (c = d); [|subst; contradiction]. rewrite <- app_assoc in E. cbn [app] in E. rewrite app_assoc in E.
  clear - E B B2 Hc Hd. unfold blanks in *. revert s2 E B2. generalize (x ++ w') as y. clear x w'. intros y. induction s as [|b s IH] using rev_ind; intros s2 E B2.
  - destruct s2 as [|b2 s2 _] using rev_ind; [apply app_inj_tail in E as [_ E]; exact E|]. exfalso. rewrite app_comm_cons, app_assoc in E. apply app_inj_tail in E as [_ E]. subst b2. apply Forall_app in B2 as [_ B2]. inversion B2; congruence.
  - rewrite app_comm_cons, app_assoc in E. apply Forall_app in B as [B B']. destruct s2 as [|b2 s2 _] using rev_ind; [exfalso; apply app_inj_tail in E as [_ E]; subst b; inversion B'; congruence|].
    apply Forall_app in B2 as [B2 _]. rewrite (app_comm_cons s2), (app_assoc y) in E. apply app_inj_tail in E as [E _]. apply (IH B s2 E B2).
Qed.
Lemma clear_none : clear_before [].
Proof. split; [auto|]. intros (x & w & s & E & Tw & _). symmetry in E. apply app_eq_nil in E as [_ E]. apply app_eq_nil in E as [-> _]. cbn in Tw. decompose [or] Tw; try contradiction; discriminate. Qed.
Lemma clear_sign q c post : q <> [] -> is_word c = false -> is_space c = false -> ~ In c ["-"; "226"; "~"; "227"; "t"; "?"; "239"; "."; ":"]%char -> clear_after q (c :: post).
Proof.
  intros Nq Hw Hs N. split; [|split; [|congruence]].
  - cbn. split; [exact Hw|]. split; [intros ->; apply N; cbn; tauto|]. intros [-> | ->]; exfalso; apply N; cbn; tauto.
  - intros (s1 & w & s2 & d & r & E & B & Tw & _). destruct s1 as [|b s1].
    + cbn [app] in E. apply N. cbn [In] in Tw |- *. unfold to_word in Tw. cbn [In] in Tw. decompose [or] Tw; try contradiction; subst w; injection E as -> _; tauto.
    + cbn in E. injection E as -> _. inversion B; congruence.
Qed.
Lemma clear_end q : q <> [] -> clear_after q [].
Proof. intros Nq. split; [exact Logic.I|]. split; [|congruence]. intros (s1 & w & s2 & d & r & E & _). symmetry in E. do 3 apply app_eq_nil in E as [_ E]. discriminate. Qed.
Example C93_case : exists r, let t := Moment (Cal 2024 2 29) 5 6 7 in let k := Clock (bs "5") (bs "30") [] Pm in
  real_instant t 1 /\ to_lower (bs "I worked 12 hours, so meet me at 5:30 PM, please.") = bs "i worked 12 hours, so meet me at " ++ bs "5:30 pm" ++ bs ", please." /\
  clock_words (bs "5:30 pm") k (bs " pm") /\ clear_before (bs "i worked 12 hours, so meet me at ") /\ clear_after (bs " pm") (bs ", please.") /\ clock_time k 5 30 /\ seconds_fine k /\ on_clock Pm 5 = 17 /\
  (exists r0, x_res (execute (benign_env "x") time_expression gwords_init (bs "I worked 12 hours, so meet me at 5:30 PM, please.") (ptime_of t 1)) = Ret [r0; r]) /\
  r_text r = bs "at 5:30 pm" /\ getIndex r = 29 /\ toDate r = Ret (bs "2024-Feb-29 17:30:00").
Proof.
  eexists. cbv zeta. split; [inst|]. split; [reflexivity|]. split.
  { exists (bs ":30"). split; [reflexivity|]. split; [exists 5; apply (hs_digits (bs "5")); [repeat constructor|cbn; lia]|]. split; [apply (mp_minutes _ (bs ":") (bs "30")); [right; left; reflexivity|repeat constructor|cbn; lia]|].
    split; [cbn; lia|]. right. exists (bs " "), "pm". split; [reflexivity|]. split; [repeat constructor|cbn; tauto]. }
  split; [apply (clear_letter (bs "i worked 12 hours, so meet me a") "t"%char (bs " ")); [repeat constructor|discriminate|reflexivity|cbn; intuition discriminate]|].
  split; [apply (clear_sign (bs " pm") ","%char (bs " please.")); [discriminate|reflexivity|reflexivity|cbn; intuition discriminate]|].
  split; [split; [apply (ts_minutes (bs "5") (bs "30") 5); [apply (hs_digits (bs "5")); [repeat constructor|cbn; lia]|repeat constructor|cbn; lia]|]; cbn; lia|].
  split; [left; reflexivity|]. split; [reflexivity|]. split; [eexists; vm_compute; reflexivity|]. vm_compute. auto.
Qed.
