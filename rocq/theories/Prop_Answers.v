(** * Answers of the program (C74-C79): what time.cpp prints for a text that is one phrase, for every reference moment and every sort. *)
From Verif Require Import Base Regex RegexParse Calendar Components Utils Execute Spec View ParserSpec PhraseSpec WeekSpec ClockSpec CalendarCycle CalendarFacts RegexFacts ResultFacts
  ExecuteFacts ParserRe MatchFacts FuelFacts LocateFacts HistoryFacts ParserFacts CasualFacts OverlapFacts MergeFacts Refiners Main MainFacts ISOFacts Alphabet.
From Verif Require Import P_CasualDate P_CasualTime P_DayOfWeek P_Deadline P_ISO P_MonthName P_MiddleEndian
  P_TimeAgo P_TimeLater P_TimeExpression P_Holiday P_Week Prop_Execute Prop_Casual Prop_Refine Prop_Main Prop_Tags Prop_Deadline Prop_ISO Prop_Month Prop_Week Prop_Clock.
From Coq Require Import ZifyBool ZifyNat.
Open Scope string_scope.
Open Scope list_scope.
Open Scope Z_scope.

(** reads through an iterator into the string just lower-cased (core.cpp's loop) yield what was there *)
Definition steady_reads (e : env) : Prop := forall n, ev_stale e n = Some n.
Lemma steady_sane e : steady_reads e -> sane e. Proof. intros H n. right. apply H. Qed.

(** ** Vocabulary *)
Definition letters : list ascii := bs "abcdefghijklmnopqrstuvwxyz".
(** blanks, digits and the marks . : ' (and the bytes of the wide colon) *)
Definition is_gap (c : ascii) : bool := is_space c || is_digit c || existsb (Ascii.eqb c) (bs ".:'：").
Definition gap_chars : list ascii := Eval vm_compute in filter is_gap all_ascii.
Lemma gap_in c : is_gap c = true -> In c gap_chars.
Proof.
  intros E. assert (H : forall c, (negb (is_gap c) || existsb (Ascii.eqb c) gap_chars) = true) by (apply forall_ascii; vm_compute; reflexivity).
  specialize (H c). rewrite E in H. cbn [negb orb] in H. apply existsb_exists in H as (d & I & Q). apply Ascii.eqb_eq in Q. subst. exact I.
Qed.
Lemma gap_space c : is_space c = true -> In c gap_chars.
Proof. intros H. apply gap_in. unfold is_gap. rewrite H. reflexivity. Qed.
Lemma gap_digit c : is_digit c = true -> In c gap_chars.
Proof. intros H. apply gap_in. unfold is_gap. rewrite H, Bool.orb_true_r. reflexivity. Qed.
(** words of the list separated by characters of G *)
Inductive worded_by (G : list ascii) (L : list string) : bytes -> Prop :=
| wd_one w : In w L -> worded_by G L (bs w)
| wd_gap w sep t : In w L -> sep <> [] -> Forall (fun c => In c G) sep -> worded_by G L t -> worded_by G L (bs w ++ sep ++ t).
Arguments wd_one {G} L w _.
Arguments wd_gap {G} L w sep t _ _ _ _.
Notation worded := (worded_by gap_chars).
Lemma gap_not_lower c : In c gap_chars -> is_lower c = false.
Proof.
  assert (H : forallb (fun c => negb (is_lower c)) gap_chars = true) by (vm_compute; reflexivity). rewrite forallb_forall in H. intros I. apply negb_true_iff, H, I.
Qed.
Lemma worded_by_avoids G L f t : (forall c, In c G -> is_lower c = false) -> f <> [] -> forallb is_lower f = true -> forallb (fun w => negb (containsb f (bs w))) L = true -> worded_by G L t -> ~ occurs f t.
Proof.
  intros Hg Nf Lf C W. rewrite forallb_forall in C.
  assert (C' : forall w, In w L -> ~ occurs f (bs w)) by (intros w I; apply containsb_ok, negb_true_iff, C, I).
  induction W as [w I|w sep t I Ns Fs W IH]; [apply C'; exact I|]. intros O. apply occurs_gap in O as [O|O]; auto.
  - exact (C' w I O).
  - apply Forall_forall. apply forallb_forall. exact Lf.
  - eapply Forall_impl; [|exact Fs]. cbn. exact Hg.
Qed.
Lemma worded_avoids L f t : f <> [] -> forallb is_lower f = true -> forallb (fun w => negb (containsb f (bs w))) L = true -> worded L t -> ~ occurs f t.
Proof. apply worded_by_avoids. exact gap_not_lower. Qed.
Lemma worded_chars G L A t : forallb (fun w => forallb (fun c => existsb (Ascii.eqb c) A) (bs w)) L = true -> (forall c, In c G -> In c A) -> worded_by G L t -> Forall (fun c => In c A) t.
Proof.
  intros C Ga W. rewrite forallb_forall in C.
  assert (C' : forall w, In w L -> Forall (fun c => In c A) (bs w)).
  { intros w I. apply Forall_forall. intros c Ic. pose proof (proj1 (forallb_forall _ _) (C w I) c Ic) as H. cbn in H. apply existsb_exists in H as (d & Id & E). apply Ascii.eqb_eq in E. subst d. exact Id. }
  induction W as [w I|w sep t I Ns Fs W IH]; [apply C'; exact I|]. apply Forall_app. split; [apply C'; exact I|]. apply Forall_app. split; [|exact IH].
  eapply Forall_impl; [|exact Fs]. cbn. exact Ga.
Qed.

(** the words that make a parser other than the deadline and the clock parser look at a text of letters, digits and blanks *)
Definition key_words : list string :=
  ["morning"; "afternoon"; "evening"; "noon"; "night"; "now"; "today"; "tomorrow"; "tmr"; "yesterday"; "jan"; "feb"; "mar"; "apr"; "may"; "jun"; "jul"; "aug"; "sep"; "oct"; "nov"; "dec";
   "independence"; "columbus"; "mlk"; "martin"; "thanksgiving"; "memorial"; "labor"; "veteran"; "black"; "new"; "president"; "this"; "last"; "next"; "past"].
Definition plain_chars : list ascii := letters ++ gap_chars.
Definition deadline_words : list string :=
  ["in"; "within"; "a"; "an"; "few"; "half"] ++ map fst number_words ++ map fst full_units.
(** those of them that do not occur in the given words *)
Definition avoids (L : list string) (f : string) : bool := forallb (fun w => negb (containsb (bs f) (bs w))) L.
Definition keys_for (K L : list string) : list string := filter (avoids L) K.
Definition proper (f : string) : bool := if forallb is_lower (bs f) then negb (beq (bs f) []) else false.
Lemma proper_keys : forallb proper key_words = true. Proof. vm_compute. reflexivity. Qed.
Lemma keys_avoid G K L t : (forall c, In c G -> is_lower c = false) -> forallb proper K = true -> worded_by G L t -> forall f, In f (map bs (keys_for K L)) -> ~ occurs f t.
Proof.
  intros Hg P W f If. apply in_map_iff in If as (w & <- & Iw). apply filter_In in Iw as [Ik Av]. rewrite forallb_forall in P. specialize (P w Ik). unfold proper in P.
  destruct (forallb is_lower (bs w)) eqn:Lw; [|discriminate]. apply (worded_by_avoids G L); auto. intros E. rewrite E in P. discriminate.
Qed.
Definition void_in (A : list ascii) (F : list bytes) (p : parser) : bool := match compile (p_pattern p) with Some r => void A F r | None => true end.
Lemma quiet_gen A F ps text : forallb (void_in A F) ps = true -> Forall (fun c => In c A) (to_lower text) -> (forall f, In f F -> ~ occurs f (to_lower text)) -> Forall (silent text) ps.
Proof.
  intros H Ha Hf. apply Forall_forall. intros p Ip. apply (void_silent A F); auto.
  pose proof (proj1 (forallb_forall (void_in A F) ps) H p Ip) as V. unfold void_in in V. destruct (compile (p_pattern p)); [exact V|exact I].
Qed.
Definition quietb (L : list string) (ps : list parser) : bool := forallb (void_in plain_chars (map bs (keys_for key_words L))) ps.
Definition plainb (L : list string) : bool := forallb (fun w => forallb is_lower (bs w)) L.
Lemma plain_worded L t : plainb L = true -> worded L t -> Forall (fun c => In c plain_chars) t.
Proof.
  intros P. apply worded_chars; [|intros c I; apply in_or_app; right; exact I].
  apply forallb_forall. intros w I. unfold plainb in P. rewrite forallb_forall in P. specialize (P w I). apply forallb_forall. intros c Ic. rewrite forallb_forall in P. specialize (P c Ic).
  revert P. assert (H : forall c, (negb (is_lower c) || existsb (Ascii.eqb c) plain_chars) = true) by (apply forall_ascii; vm_compute; reflexivity).
  intros P. specialize (H c). rewrite P in H. exact H.
Qed.
Lemma quiet_text L ps text : quietb L ps = true -> plainb L = true -> worded L (to_lower text) -> Forall (silent text) ps.
Proof.
  unfold quietb. pose proof proper_keys as Pk. generalize dependent key_words. intros K Pk Q P W.
  apply (quiet_gen plain_chars (map bs (keys_for K L)) ps text Q).
  - apply (plain_worded L); assumption.
  - exact (keys_avoid gap_chars K L _ gap_not_lower Pk W).
Qed.

(** the clock parser returns on such texts *)
Lemma worded_no_to L text : plainb L = true -> forallb (fun w => negb (containsb (bs "to") (bs w))) L = true -> worded L (to_lower text) ->
  forall w, to_word w -> ~ occurs w (to_lower text).
Proof.
  intros P C W w Tw O. pose proof (plain_worded _ _ P W) as A.
  assert (D : w = bs "to" \/ exists c w', w = c :: w' /\ existsb (Ascii.eqb c) plain_chars = false).
  { unfold to_word in Tw. cbn in Tw. decompose [or] Tw; try contradiction; subst w; auto; right; eexists; eexists; (split; [reflexivity|vm_compute; reflexivity]). }
  destruct D as [-> | (c & w' & -> & N)].
  - revert O. apply (worded_avoids L); auto. discriminate.
  - destruct O as (x & y & E). rewrite E in A. apply Forall_app in A as [_ A]. inversion A as [|? ? I _]; subst.
    assert (existsb (Ascii.eqb c) plain_chars = true) by (apply existsb_exists; exists c; split; [exact I|apply Ascii.eqb_refl]). congruence.
Qed.
Lemma clock_minor e L text t us Cs v : steady_reads e -> real_instant t us -> plainb L = true -> forallb (fun w => negb (containsb (bs "to") (bs w))) L = true -> worded L (to_lower text) ->
  void plain_chars [] (fold_left (fun r C => after1 C r) Cs time_expression_re) = true -> begins Cs (to_lower text) v ->
  minor e text (ptime_of t us) time_expression.
Proof.
  intros He H P C W V B. destruct (C44_no_range_partial e text t us H He (worded_no_to L text P C W)) as [rs X].
  apply (part_minor e text _ time_expression time_expression_re rs (steady_sane e He) ltac:(cbn; tauto) time_expression_compile X).
  assert (Q : low v /\ Forall (fun c => In c plain_chars) v).
  { pose proof (low_to_lower text) as Lo. pose proof (plain_worded _ _ P W) as A. clear - B Lo A. induction B as [|C Cs c w v Ic B IH]; [auto|].
    inversion Lo; inversion A; subst. auto. }
  apply (begins_not plain_chars Cs _ _ v V B); apply Q.
Qed.

(** ** The line printed for a result without end *)
Lemma shown_moment e p text ref res mo : sane e -> In p parsers -> alone e p text ref = Ret [res] -> denotes (r_start res) mo -> real_moment mo -> has_end res = false ->
  shown (toDate res) = Ret (line (bs (written mo))).
Proof.
  intros He Ip X D R En. unfold shown. rewrite (toDate_start res mo); [reflexivity|exact D|exact R| |exact En].
  apply (C73_no_refiner_tag e p gwords_init text ref [res] res TExtractTZ He (in_all p Ip) X); [left; reflexivity|left; reflexivity].
Qed.
Lemma implied_value f v p : implied_is f v p -> api_get f p = v. Proof. intros (_ & _ & H). exact H. Qed.
Lemma midnight_denotes p c : date_implied p c -> untouched [WDay; Hour; Min; Sec; TzOffset] p -> denotes p (Moment c 0 0 0).
Proof.
  intros (D1 & D2 & D3) U. unfold untouched in U. rewrite Forall_forall in U. unfold denotes.
  assert (V : forall f, In f [WDay; Hour; Min; Sec; TzOffset] -> api_get f p = 0) by (intros f I; apply U; exact I).
  repeat split; [exact (implied_value _ _ _ D1)|exact (implied_value _ _ _ D2)|exact (implied_value _ _ _ D3)|apply (V Hour)|apply (V Min)|apply (V Sec)]; cbn; tauto.
Qed.
Lemma midnight_real c : real_date c -> real_moment (Moment c 0 0 0).
Proof. intros R. repeat split; try apply R; cbn; lia. Qed.

(** ** C74: deadlines *)
Definition not_deadline : list parser := [casual_time; day_of_week; casual_date; middle_endian; time_later; month_name; time_ago; iso; holiday; week].
Lemma deadline_quiet : quietb deadline_words not_deadline = true. Proof. vm_compute. reflexivity. Qed.
Lemma spells_worded n q kw s1 s2 u : spells n q -> In kw ["in"; "within"] -> In u (map fst full_units) -> blanks s1 -> s1 <> [] -> blanks s2 -> s2 <> [] ->
  worded deadline_words (bs kw ++ s1 ++ n ++ s2 ++ bs u).
Proof.
  intros Sq Ik Iu B1 N1 B2 N2.
  assert (Bg : forall sp, blanks sp -> Forall (fun c => In c gap_chars) sp) by (intros sp B; eapply Forall_impl; [|exact B]; cbn; apply gap_space).
  assert (Wk : In kw deadline_words) by (apply in_or_app; left; cbn in *; tauto).
  assert (Wu : In u deadline_words) by (apply in_or_app; right; apply in_or_app; right; exact Iu).
  assert (Wa : forall a, article a -> exists w, a = bs w /\ In w deadline_words) by (intros a [-> | ->]; eexists; (split; [reflexivity|cbn; tauto])).
  assert (One : forall w, In w deadline_words -> worded deadline_words (bs kw ++ s1 ++ bs w ++ s2 ++ bs u)).
  { intros w Iw. constructor; auto. constructor; auto. constructor. exact Wu. }
  inversion Sq as [w k Iw|w Dw Nw|a Ha|a sp Ha B N| |a sp Ha B N]; subst.
  - apply One. apply in_or_app. right. apply in_or_app. left. apply (in_map fst) in Iw. exact Iw.
  - replace (bs kw ++ s1 ++ n ++ s2 ++ bs u) with (bs kw ++ (s1 ++ n ++ s2) ++ bs u) by (rewrite <- !app_assoc; reflexivity).
    constructor; [exact Wk|destruct s1; [congruence|discriminate]| |constructor; exact Wu].
    apply Forall_app. split; [auto|]. apply Forall_app. split; [|auto]. eapply Forall_impl; [|exact Dw]. cbn. apply gap_digit.
  - destruct (Wa _ Ha) as (w & -> & Iw). apply One. exact Iw.
  - destruct (Wa _ Ha) as (w & -> & Iw). rewrite <- !app_assoc. constructor; auto. constructor; auto. constructor; auto; [cbn; tauto|]. constructor. exact Wu.
  - apply One. cbn. tauto.
  - destruct (Wa _ Ha) as (w & -> & Iw). rewrite <- !app_assoc. constructor; auto. constructor; auto; [cbn; tauto|]. constructor; auto. constructor. exact Wu.
Qed.
Lemma deadline_answer e sortf text t us n q w u res : steady_reads e -> is_sort sortf -> real_instant t us -> Z.of_nat (List.length text) < 2 ^ 32 ->
  deadline_phrase (to_lower text) n (bs w) -> spells n q -> In (w, u) full_units ->
  alone e deadline text (ptime_of t us) = Ret [res] -> r_text res = to_lower text -> r_index res = 0 ->
  main e sortf gwords_init text (ptime_of t us) = shown (toDate res).
Proof.
  intros He Hs H Hn (kw & s1 & s2 & E & K & B1 & N1 & B2 & N2) Sq Iw X Tx Ix.
  assert (K' : exists k, kw = bs k /\ In k ["in"; "within"]) by (destruct K as [-> | ->]; eexists; (split; [reflexivity|cbn; tauto])). destruct K' as (k & -> & Ik).
  assert (W : worded deadline_words (to_lower text)) by (rewrite E; eapply spells_worded; eauto; apply (in_map fst) in Iw; exact Iw).
  pose proof (quiet_text deadline_words not_deadline text deadline_quiet ltac:(vm_compute; reflexivity) W) as Q.
  apply (whole_answer e sortf text _ [casual_time] deadline [day_of_week; casual_date; middle_endian; time_later; month_name; time_ago; time_expression; iso; holiday; week] res eq_refl); auto using steady_sane.
  assert (Cm : minor e text (ptime_of t us) time_expression).
  { assert (B : exists v, begins [bs "iw"] (to_lower text) v) by (rewrite E; destruct Ik as [<-|[<-|[]]]; eexists; (constructor; [cbn; tauto|constructor])).
    destruct B as [v B]. apply (clock_minor e deadline_words text t us [bs "iw"] v); auto; vm_compute; reflexivity. }
  assert (Q' : Forall (minor e text (ptime_of t us)) not_deadline) by (eapply Forall_impl; [|exact Q]; intros p; apply silent_minor).
  rewrite Forall_forall in *. intros p Ip. cbn [app In] in Ip. assert (D : time_expression = p \/ In p not_deadline) by (unfold not_deadline; cbn [In]; tauto).
  destruct D as [<- | D]; auto.
Qed.
(** "in N days/weeks/months/years" prints that date at midnight *)
Theorem C74_deadline_date : forall e sortf text t us n q w u c, steady_reads e -> is_sort sortf -> real_instant t us -> Z.of_nat (List.length text) < 2 ^ 32 ->
  deadline_phrase (to_lower text) n (bs w) -> spells n q -> In (w, u) full_units -> deadline_target t q u c -> real_date c ->
  main e sortf gwords_init text (ptime_of t us) = Ret (line (bs (written (Moment c 0 0 0)))).
Proof.
  intros e sortf text t us n q w u c He Hs H Hn Ph Sq Iw T R.
  destruct (C23_deadline_date e text t us n q w u c H Ph Sq Iw T R) as (res & X & Tx & Ix & D & U & En).
  rewrite (deadline_answer e sortf text t us n q w u res); auto.
  apply (shown_moment e deadline text (ptime_of t us)); auto using steady_sane, midnight_denotes, midnight_real. right. left. reflexivity.
Qed.
Print Assumptions C74_deadline_date.
(** "in N hours/minutes/seconds" prints that moment, if it is on the same day (see C24 for what happens otherwise) *)
Theorem C74_deadline_clock : forall e sortf text t us n q w u secs t', steady_reads e -> is_sort sortf -> real_instant t us -> Z.of_nat (List.length text) < 2 ^ 32 ->
  deadline_phrase (to_lower text) n (bs w) -> spells n q -> In (w, u) full_units -> u <> UDay -> deadline_seconds q u = Some secs ->
  (forall k, q = Whole k -> k <= 2 ^ 24) -> seconds_after secs t t' -> mdate t' = mdate t ->
  main e sortf gwords_init text (ptime_of t us) = Ret (line (bs (written t'))).
Proof.
  intros e sortf text t us n q w u secs t' He Hs H Hn Ph Sq Iw Nu Ds Hk Sa Sd.
  destruct (C24_clock_deadline_partial e text t us n q w u secs t' H Ph Sq Iw Nu Ds Hk Sa) as (res & X & Tx & Ix & En & D & C & U & Dn).
  rewrite (deadline_answer e sortf text t us n q w u res); auto.
  apply (shown_moment e deadline text (ptime_of t us)); auto using steady_sane; [right; left; reflexivity|apply Dn; exact Sd|].
  destruct Sa as (V & A1 & A2 & A3 & _). split; [rewrite Sd; apply H|]. auto.
Qed.
Print Assumptions C74_deadline_clock.
(** "in half a day" prints the moment twelve hours later, without its seconds *)
Theorem C74_half_day : forall e sortf text t us n t', steady_reads e -> is_sort sortf -> real_instant t us -> Z.of_nat (List.length text) < 2 ^ 32 ->
  deadline_phrase (to_lower text) n (bs "day") -> spells n Half -> real_moment t' -> seconds_after 43200 t t' ->
  main e sortf gwords_init text (ptime_of t us) = Ret (line (bs (written (Moment (mdate t') (mhour t') (mmin t') 0)))).
Proof.
  intros e sortf text t us n t' He Hs H Hn Ph Sq R Sa.
  destruct (C23_half_day e text t us n t' H Ph Sq R Sa) as (res & X & Tx & Ix & En & (D1 & D2 & D3) & Hh & Hm & U).
  rewrite (deadline_answer e sortf text t us n Half "day" UDay res); auto; [|left; reflexivity].
  apply (shown_moment e deadline text (ptime_of t us)); auto using steady_sane; [right; left; reflexivity| |].
  - unfold denotes. cbn [Spec.mdate Spec.mhour Spec.mmin Spec.msec]. unfold untouched in U. inversion U as [|? ? (_ & _ & A) _]; subst.
    repeat split; [exact (implied_value _ _ _ D1)|exact (implied_value _ _ _ D2)|exact (implied_value _ _ _ D3)|exact (implied_value _ _ _ Hh)|exact (implied_value _ _ _ Hm)|exact A].
  - destruct R as (A & B & C & _). repeat split; try apply A; cbn; try apply B; try apply C; lia.
Qed.
Print Assumptions C74_half_day.
Example C74_case : let t := Moment (Cal 2024 1 31) 9 15 0 in steady_reads env0 /\ is_sort sort_stable /\ real_instant t 3 /\
  deadline_phrase (to_lower (bs "Within  a few months")) (bs "a few") (bs "months") /\ spells (bs "a few") (Whole 3) /\ In ("months", UMonth) full_units /\
  deadline_target t (Whole 3) UMonth (Cal 2024 4 30) /\ real_date (Cal 2024 4 30) /\
  main env0 sort_stable gwords_init (bs "Within  a few months") (ptime_of t 3) = Ret (line (bs "2024-Apr-30 00:00:00")) /\
  seconds_after 43200 t (Moment (Cal 2024 1 31) 21 15 0) /\ main env0 sort_stable gwords_init (bs "in half a day") (ptime_of t 3) = Ret (line (bs "2024-Jan-31 21:15:00")) /\
  deadline_seconds (Whole 90) UMinute = Some 5400 /\ main env0 sort_stable gwords_init (bs "in 90 minutes") (ptime_of t 3) = Ret (line (bs "2024-Jan-31 10:45:00")).
Proof.
  cbv zeta. split; [intros n; reflexivity|]. split; [exact stable_is_sort|]. split; [inst|]. split.
  { exists (bs "within"), (bs "  "), (bs " "). split; [reflexivity|]. split; [auto|]. repeat split; try discriminate; repeat constructor. }
  split; [apply (sp_few (bs "a") (bs " ")); [left; reflexivity|repeat constructor|discriminate]|]. split; [cbn; tauto|].
  split; [split; [|lia]; split; [reflexivity|split; [cbn; lia|reflexivity]]|]. split; [inst|]. split; [vm_compute; reflexivity|]. split; [concrete|].
  split; [vm_compute; reflexivity|]. split; [reflexivity|]. vm_compute; reflexivity.
Qed.

(** ** C75: ISO dates and times *)
Definition iso_chars : list ascii := bs "0123456789-:.+tz".
Definition not_iso : list parser := [casual_time; deadline; day_of_week; casual_date; middle_endian; time_later; month_name; time_ago; holiday; week].
Lemma iso_quiet : forallb (void_in iso_chars []) not_iso = true. Proof. vm_compute. reflexivity. Qed.
Lemma digit_in c : is_digit c = true -> In c (bs "0123456789").
Proof.
  revert c. assert (H : forall c, (negb (is_digit c) || existsb (Ascii.eqb c) (bs "0123456789")) = true) by (apply forall_ascii; vm_compute; reflexivity).
  intros c E. specialize (H c). rewrite E in H. cbn [negb orb] in H. apply existsb_exists in H as (d & I & Q). apply Ascii.eqb_eq in Q. subst. exact I.
Qed.
Lemma iso_digits w : digits w -> Forall (fun c => In c iso_chars) w.
Proof. intros D. eapply Forall_impl; [|exact D]. cbn beta. intros c H. apply (in_or_app (bs "0123456789") (bs "-:.+tz")). left. apply digit_in. exact H. Qed.
Lemma iso_text_chars yy mm dd k : iso_fields yy mm dd -> match k with None => True | Some k => clock_ok k end -> Forall (fun c => In c iso_chars) (iso_text yy mm dd k).
Proof.
  intros (Dy & _ & Dm & _ & Dd & _) Dk. 
  assert (L : forall s, forallb (fun c => existsb (Ascii.eqb c) iso_chars) (bs s) = true -> Forall (fun c => In c iso_chars) (bs s)).
  { intros s H. apply Forall_forall. intros c I. rewrite forallb_forall in H. specialize (H c I). apply existsb_exists in H as (d & Id & Q). apply Ascii.eqb_eq in Q. subst. exact Id. }
  unfold iso_text, ymd_text. repeat (apply Forall_app; split); try (apply iso_digits; assumption); try (apply L; vm_compute; reflexivity).
  destruct k as [k|]; [|constructor]. destruct k as [h m s z]. destruct Dk as ((Dh & _) & (Dmi & _) & Ds & Dz). unfold clock_text. cbn [ic_h ic_m ic_s ic_z] in *.
  repeat (apply Forall_app; split); try (apply iso_digits; assumption); try (apply L; vm_compute; reflexivity).
  - destruct s as [[ss fr]|]; [|constructor]. destruct Ds as ((Dss & _) & Df & _). repeat (apply Forall_app; split); try (apply iso_digits; assumption); try (apply L; vm_compute; reflexivity).
    destruct fr; [constructor|]. apply Forall_app. split; [apply L; vm_compute; reflexivity|apply iso_digits; exact Df].
  - destruct z as [| |minus hh colon mi]; [constructor|apply L; vm_compute; reflexivity|]. destruct Dz as (Dhh & _ & Dmm & _). cbn [zone_text].
    repeat (apply Forall_app; split); try (apply iso_digits; assumption); [destruct minus; apply L; vm_compute; reflexivity|destruct colon; [apply L; vm_compute; reflexivity|constructor]].
Qed.
Lemma begins_digits w t : digits w -> forall Cs v, begins Cs t v -> begins (repeat (bs "0123456789") (List.length w) ++ Cs) (w ++ t) v.
Proof. induction 1 as [|c w Hc D IH]; intros Cs v B; [exact B|]. cbn [List.length repeat app]. constructor; [apply digit_in; exact Hc|]. auto. Qed.
Lemma iso_begins yy mm dd k : iso_fields yy mm dd -> exists v,
  begins (repeat (bs "0123456789") 4 ++ [bs "-"] ++ repeat (bs "0123456789") (List.length mm) ++ [bs "-"]) (iso_text yy mm dd k) v /\ exists u, iso_text yy mm dd k = u ++ v.
Proof.
  intros (Dy & Ly & Dm & _ & _). unfold iso_text, ymd_text. set (z := match k with None => [] | Some k => clock_text k end). exists (dd ++ z). split.
  - rewrite <- Ly, <- !app_assoc. apply begins_digits; [exact Dy|]. cbn [app bs]. constructor; [left; reflexivity|]. apply begins_digits; [exact Dm|]. cbn. constructor; [left; reflexivity|]. constructor.
  - exists (yy ++ bs "-" ++ mm ++ bs "-"). rewrite <- !app_assoc. reflexivity.
Qed.
Lemma iso_answer e sortf text t us yy mm dd k res : benign e -> is_sort sortf -> real_instant t us -> Z.of_nat (List.length text) < 2 ^ 32 ->
  to_lower text = iso_text yy mm dd k -> iso_fields yy mm dd -> match k with None => True | Some k => clock_ok k end ->
  alone e iso text (ptime_of t us) = Ret [res] -> r_text res = to_lower text -> r_index res = 0 ->
  main e sortf gwords_init text (ptime_of t us) = shown (toDate res).
Proof.
  intros He Hs H Hn E Fd Dk X Tx Ix. pose proof (iso_text_chars yy mm dd k Fd Dk) as A.
  apply (whole_answer e sortf text _ [casual_time; deadline; day_of_week; casual_date; middle_endian; time_later; month_name; time_ago; time_expression] iso [holiday; week] res eq_refl); auto using benign_sane.
  assert (Cm : minor e text (ptime_of t us) time_expression).
  { destruct (C64_clock_total e text t us He H) as [rs Xc].
    apply (part_minor e text _ time_expression time_expression_re rs (benign_sane e He) ltac:(cbn; tauto) time_expression_compile Xc).
    destruct (iso_begins yy mm dd k Fd) as (v & B & u & Eu). rewrite <- E in B, Eu, A.
    refine (begins_not iso_chars _ _ _ v _ B _ _).
    - destruct Fd as (_ & _ & _ & Lm & _). assert (D : List.length mm = 1%nat \/ List.length mm = 2%nat) by lia. destruct D as [-> | ->]; vm_compute; reflexivity.
    - pose proof (low_to_lower text) as Lo. rewrite Eu in Lo. apply Forall_app in Lo. apply Lo.
    - rewrite Eu in A. apply Forall_app in A. apply A. }
  assert (Q : Forall (minor e text (ptime_of t us)) not_iso).
  { eapply Forall_impl; [intros p; apply silent_minor|]. apply (quiet_gen iso_chars [] not_iso text iso_quiet); [rewrite E; exact A|contradiction]. }
  rewrite Forall_forall in *. intros p Ip. cbn [app In] in Ip. assert (D : time_expression = p \/ In p not_iso) by (unfold not_iso; cbn [In]; tauto).
  destruct D as [<- | D]; auto.
Qed.
Lemma certain_value f v p : certain f v p -> api_get f p = v. Proof. intros (_ & H). exact H. Qed.
Lemma in_iso_parsers : In iso parsers. Proof. unfold parsers. do 9 right. left. reflexivity. Qed.
Theorem C75_iso_date : forall e sortf text t us yy mm dd c, benign e -> is_sort sortf -> real_instant t us -> Z.of_nat (List.length text) < 2 ^ 32 ->
  to_lower text = ymd_text yy mm dd -> iso_fields yy mm dd -> decimal yy = cy c -> decimal mm = cm c -> decimal dd = cd c -> real_date c ->
  main e sortf gwords_init text (ptime_of t us) = Ret (line (bs (written (Moment c 0 0 0)))).
Proof.
  intros e sortf text t us yy mm dd c He Hs H Hn E F Ey Em Ed R.
  destruct (C27_iso_dates e gwords_init text (ptime_of t us) yy mm dd c E F Ey Em Ed (proj1 R)) as (res & X & Tx & Ix & En & (D1 & D2 & D3) & U).
  rewrite (iso_answer e sortf text t us yy mm dd None res); auto; [|unfold iso_text; rewrite app_nil_r; exact E].
  apply (shown_moment e iso text (ptime_of t us)); auto using benign_sane, in_iso_parsers, midnight_real.
  unfold untouched in U. rewrite Forall_forall in U. assert (V : forall f, In f [WDay; Hour; Min; Sec; TzOffset] -> api_get f (r_start res) = 0) by (intros f I; apply U; exact I).
  repeat split; [exact (certain_value _ _ _ D1)|exact (certain_value _ _ _ D2)|exact (certain_value _ _ _ D3)|apply (V Hour)|apply (V Min)|apply (V Sec)]; cbn; tauto.
Qed.
Print Assumptions C75_iso_date.
(** with a time of day: the date and the time written (a zone in the text is not applied) *)
Theorem C75_iso_time : forall e sortf text t us yy mm dd c k, benign e -> is_sort sortf -> real_instant t us -> Z.of_nat (List.length text) < 2 ^ 32 ->
  to_lower text = ymd_text yy mm dd ++ clock_text k -> iso_fields yy mm dd -> clock_ok k -> decimal yy = cy c -> decimal mm = cm c -> decimal dd = cd c ->
  let mo := Moment c (decimal (ic_h k)) (decimal (ic_m k)) (match ic_s k with None => 0 | Some (ss, _) => decimal ss end) in real_moment mo ->
  main e sortf gwords_init text (ptime_of t us) = Ret (line (bs (written mo))).
Proof.
  intros e sortf text t us yy mm dd c k He Hs H Hn E F Dk Ey Em Ed mo R.
  destruct (C28_iso_times_partial e gwords_init text (ptime_of t us) yy mm dd c k E F Dk Ey Em Ed (proj1 (proj1 R))) as (res & X & Tx & Ix & En & (D1 & D2 & D3) & _ & Hh & Hm & Hsec & _).
  rewrite (iso_answer e sortf text t us yy mm dd (Some k) res); auto.
  apply (shown_moment e iso text (ptime_of t us)); auto using benign_sane, in_iso_parsers.
  assert (V : api_get Sec (r_start res) = msec mo).
  { unfold mo. cbn [Spec.msec]. destruct (ic_s k) as [[ss fr]|]; [exact (certain_value _ _ _ Hsec)|apply Hsec]. }
  repeat split; [exact (certain_value _ _ _ D1)|exact (certain_value _ _ _ D2)|exact (certain_value _ _ _ D3)|exact (certain_value _ _ _ Hh)|exact (certain_value _ _ _ Hm)|exact V].
Qed.
Print Assumptions C75_iso_time.
Example C75_case : let k := IsoClock (bs "12") (bs "30") (Some (bs "45", bs "5")) (Offset false (bs "09") true (bs "00")) in
  benign (benign_env "x") /\ to_lower (bs "2012-8-10T12:30:45.5+09:00") = ymd_text (bs "2012") (bs "8") (bs "10") ++ clock_text k /\ iso_fields (bs "2012") (bs "8") (bs "10") /\ clock_ok k /\
  real_moment (Moment (Cal 2012 8 10) 12 30 45) /\
  main (benign_env "x") sort_stable gwords_init (bs "2012-8-10T12:30:45.5+09:00") noon2024 = Ret (line (bs "2012-Aug-10 12:30:45")) /\
  main (benign_env "x") sort_other gwords_init (bs "2012-08-10") noon2024 = Ret (line (bs "2012-Aug-10 00:00:00")).
Proof.
  cbv zeta. split; [split; [exists "x"%char; reflexivity|split; intros; reflexivity]|]. split; [reflexivity|]. split; [repeat split; try (repeat constructor); cbn; lia|]. split; [repeat split; try (repeat constructor); cbn; auto|].
  split; [inst|]. split; [vm_compute; reflexivity|]. vm_compute; reflexivity.
Qed.
