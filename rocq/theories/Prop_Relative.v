(** * "this week", "next 3 months", "last year" (C41, C42) *)
From Verif Require Import Base Regex RegexParse Calendar Components Utils Execute Spec View ParserSpec PhraseSpec RelativeSpec CalendarCycle CalendarFacts RegexFacts ResultFacts Template
  ExecuteFacts ParserRe MatchFacts FuelFacts LocateFacts HistoryFacts ParserFacts CasualFacts NumberFacts DeadlineFacts Symbolic Open OrdinalFacts ISOFacts HolidayFacts WeekFacts
  FragmentFacts AgoRuns AgoFacts RelativeFacts RelativeRuns Main P_Deadline P_Relative Prop_Execute Prop_Casual Prop_Ago.
From Coq Require Import ZifyBool ZifyNat ZifyN.
Open Scope string_scope.
Open Scope list_scope.
Open Scope Z_scope.

Lemma in_relative : In relative all_parsers. Proof. unfold all_parsers. apply in_or_app. right. left. reflexivity. Qed.

(** what a result for "this ..." says: a range around the reference date *)
Definition this_range (t : moment) (w : string) (r : result) : Prop :=
  has_end r = true /\ untouched [WDay; Hour; Min; Sec; TzOffset] (r_start r) /\ untouched [WDay; Hour; Min; Sec; TzOffset] (r_endc r) /\
  exists a b, real_date a /\ real_date b /\
    ((In (w, UWeek) full_units /\ week_of (mdate t) a b /\ range_implied r a b) \/
     (In (w, UMonth) full_units /\ month_of (mdate t) a b /\ range_month r a b) \/
     (In (w, UYear) full_units /\ year_of (mdate t) a b /\ range_year r a b)).
(** what a result for "next/last/past ..." says *)
Definition moved (t : moment) (s : Z) (q : quantity) (w : string) (r : result) : Prop :=
  has_end r = false /\ untouched [WDay; TzOffset] (r_start r) /\
  ((exists u, In (w, u) full_units /\ relative_means t s q u (r_start r)) \/
   ((w = "min" \/ w = "mins") /\ date_implied (r_start r) (mdate t) /\ clock_implied (r_start r) t)).
Lemma month_ends t us : real_instant t us -> let y := cy (mdate t) in let m := cm (mdate t) in real_date (Cal y m 1) /\ real_date (Cal y m (month_len y m)).
Proof.
  intros H y m. pose proof (proj1 (proj1 H)) as [[A B] C]. unfold real_date, valid, in_range_year. cbn [cy cm cd]. fold y m in A, B, C. unfold in_range_year in C. lia.
Qed.
Lemma year_ends t us : real_instant t us -> let y := cy (mdate t) in real_date (Cal y 1 1) /\ real_date (Cal y 12 31).
Proof.
  intros H y. pose proof (proj1 (proj1 H)) as [_ C]. unfold real_date, valid, in_range_year in *. cbn [cy cm cd]. fold y in C.
  assert (E1 : month_len y 1 = 31) by (unfold month_len; reflexivity). assert (E2 : month_len y 12 = 31) by (unfold month_len; reflexivity). lia.
Qed.
Lemma this_range_made t us w u ref idx tx r : real_instant t us -> In (w, u) full_units -> relative_this (ptime_of t us) (bs w) (res_new ref idx tx) = Ret r -> hasPossibleDates r = true ->
  this_range t w r /\ r_text r = tx /\ r_index r = u32 idx.
Proof.
  intros H I X P. destruct u.
  1,5,6,7: rewrite this_other in X by (left; exists w; eexists; repeat split; [exact I|discriminate..]); injection X as <-; discriminate.
  - destruct (this_week_inv w I t us _ _ H X) as (a & b & Ra & Rb & W & ->). split; [|split; reflexivity]. split; [reflexivity|]. split; [comps|]. split; [comps|]. exists a, b. do 2 (split; [assumption|]). left. split; [exact I|]. split; [exact W|]. split; comps.
  - rewrite (this_month w I t us _ H) in X. injection X as <-. split; [|split; reflexivity]. split; [reflexivity|]. split; [comps|]. split; [comps|].
    destruct (month_ends t us H) as [Ra Rb]. eexists _, _. split; [exact Ra|]. split; [exact Rb|]. right. left. split; [exact I|]. split; [split; reflexivity|]. unfold range_month. comps.
  - rewrite (this_year w I t us _ H) in X. injection X as <-. split; [|split; reflexivity]. split; [reflexivity|]. split; [comps|]. split; [comps|].
    destruct (year_ends t us H) as [Ra Rb]. eexists _, _. split; [exact Ra|]. split; [exact Rb|]. right. right. split; [exact I|]. split; [split; reflexivity|]. unfold range_year. comps.
Qed.

(** the extraction, as a function of the groups *)
Lemma relative_unfold e g tx m ref idx d : pt_date ref = Ret d -> relative_extract e g tx m ref idx =
  match relative_amount g (grp m 3) with
  | None => Ret (res_new ref idx (grp m 0))
  | Some num => if beq (grp m 2) (bs "this") then if is_nil (grp m 3) then relative_this ref (grp m 4) (res_new ref idx (grp m 0)) else Ret (res_new ref idx (grp m 0))
      else rel_rest num (if beq (grp m 2) (bs "next") then 1 else -1) (grp m 4) ref d (res_new ref idx (grp m 0))
  end.
Proof. intros E. unfold relative_extract. rewrite E. reflexivity. Qed.
Lemma heads_sign kw s : heads kw s -> beq kw (bs "this") = false /\ (if beq kw (bs "next") then 1 else -1) = s /\ (s = 1 \/ s = -1).
Proof. intros [[-> ->]|[[-> | ->] ->]]; vm_compute; auto. Qed.

Definition relative_said (t : moment) (tx : bytes) (r : result) : Prop :=
  (exists kw s s1 n q s2 w, tx = kw ++ s1 ++ n ++ s2 ++ bs w /\ heads kw s /\ blanks s1 /\ rel_amount n q /\ blanks s2 /\ moved t s q w r) \/
  (exists sp w, tx = bs "this" ++ sp ++ bs w /\ blanks sp /\ this_range t w r).
Lemma blanks_app a b : blanks a -> blanks b -> blanks (a ++ b).
Proof. intros A B. apply Forall_app. auto. Qed.
Lemma relative_extracted e tx m t us idx r : real_instant t us -> low tx -> search true relative_re tx = Some m ->
  relative_extract e gwords_init tx m (ptime_of t us) idx = Ret r -> hasPossibleDates r = true ->
  relative_said t (m_str m) r /\ r_text r = m_str m /\ r_index r = u32 idx.
Proof.
  intros H Lw S X P. destruct (relative_match _ _ S) as (pre & post & kw & s1 & n & s2 & u & Et & _ & Em & Lk & B1 & Ln & B2 & Lu & G2 & G3 & G4).
  assert (Lm : low (m_str m)) by (rewrite Et in Lw; eapply low_part; exact Lw). rewrite Em in Lm.
  apply low_app in Lm as [Lok Lm]. apply low_app in Lm as [_ Lm]. apply low_app in Lm as [Lon Lm]. apply low_app in Lm as [_ Lou].
  rewrite (relative_unfold e gwords_init tx m _ idx _ (pt_date_of _ _ H)), G2, G3, G4 in X. cbn [grp] in X.
  destruct (relative_amount_spec n Lon Ln) as [(q & Aq & Hq & [A|[_ A]])|(w & k & _ & _ & A)]; rewrite A in X; [|injection X as <-; discriminate..].
  pose proof (relative_unit u Lou Lu) as Un.
  destruct (relative_key kw Lok Lk) as [-> | (s & Hd)].
  - change (beq (bs "this") (bs "this")) with true in X. cbv iota in X. destruct n as [|c n]; cbn [is_nil] in X; [|injection X as <-; discriminate].
    destruct Un as [(w & k & -> & I)|Mi].
    + destruct (this_range_made t us w k _ _ _ _ H I X P) as (A1 & A2 & A3). split; [|auto]. right. exists (s1 ++ s2), w. rewrite Em. cbn [app]. rewrite <- app_assoc. split; [reflexivity|]. split; [apply blanks_app; assumption|exact A1].
    + rewrite this_other in X by (right; exact Mi). injection X as <-. discriminate.
  - destruct (heads_sign kw s Hd) as (E1 & E2 & E3). rewrite E1, E2 in X.
    destruct Un as [(w & k & -> & I)|Mi].
    + rewrite (rel_rest_kind w k I) in X. destruct (rel_kind_inv s q k t us idx (m_str m) r E3 Hq H X) as (M & A1 & A2 & A3 & A4 & A5). split; [|auto].
      left. exists kw, s, s1, n, q, s2, w. rewrite Em. do 5 (split; [auto|]). split; [exact A3|]. split; [exact A4|]. left. eauto.
    + rewrite (rel_rest_min u Mi) in X. rewrite (clock_rest_at t us _ H) in X. injection X as <-. split; [|split; reflexivity].
      left. exists kw, s, s1, n, q, s2, (if beq u (bs "min") then "min" else "mins"). rewrite Em. do 5 (split; [destruct Mi as [-> | ->]; auto|]). split; [reflexivity|]. split; [comps|]. right.
      split; [destruct Mi as [-> | ->]; auto|]. split; [|unfold clock_implied]; comps.
Qed.

(** C41 and C42, every result of every text.  It is a range around the reference date for "this week/month/year", or the reference moved by the
    amount for "next/last/past" (forwards for "next"); there is never a result for "this N units", and none whose amount is a number word. *)
Theorem C42_every_relative : forall e text t us rs res, sane e -> real_instant t us ->
  x_res (execute e relative gwords_init text (ptime_of t us)) = Ret rs -> In res rs ->
  (exists kw s s1 n q s2 w, r_text res = kw ++ s1 ++ n ++ s2 ++ bs w /\ heads kw s /\ blanks s1 /\ rel_amount n q /\ blanks s2 /\ moved t s q w res) \/
  (exists sp w, r_text res = bs "this" ++ sp ++ bs w /\ blanks sp /\ this_range t w res).
Proof.
  intros e text t us rs res He H X I.
  destruct (results_from_pure e relative_pattern relative_extract gwords_init text _ rs res relative_re He in_relative relative_compile X I)
    as (off & m & r0 & S & L & Xr & P & ->).
  destruct (relative_extracted e _ m t us _ r0 H L S Xr P) as (Q & T & _). destruct (copy_preserves r0) as (_ & _ & Tx & _ & En & St & Ed & _). cbv zeta in *.
  destruct Q as [(kw & s & s1 & n & q & s2 & w & E & Hd & B1 & A & B2 & M1 & M2 & M3)|(sp & w & E & B & M1 & M2 & M3 & M4)].
  - left. exists kw, s, s1, n, q, s2, w. unfold moved. rewrite Tx, En, St, T. auto 10.
  - right. exists sp, w. unfold this_range, range_implied, range_month, range_year. rewrite Tx, En, St, T, (Ed M1). auto 10.
Qed.
Print Assumptions C42_every_relative.


(** ** The phrases themselves.  (The white space is spaces, in any number, also none.) *)
Lemma amount_items n q : rel_amount n q -> plain_spaces n -> exists N, amount_of n N /\ items_text N = n /\ Forall (item_ok' true relative_re) N /\ (N = [] <-> n = []).
Proof.
  intros A P. destruct A as [|w D Nw| | |sp a B Aa].
  - exists []. repeat split; try constructor; auto.
  - destruct w as [|c w]; [congruence|]. exists (spread (c :: w) "0"). split; [constructor|]. split; [apply spread_text|]. split; [apply (spread_ok _ _ _ _ rl_digit D)|]. split; discriminate.
  - exists (cased (bs "few") (bs "few")). split; [constructor|]. split; [apply self_text|]. split; [apply self_ok|]. split; discriminate.
  - exists (cased (bs "half") (bs "half")). split; [constructor|]. split; [apply self_text|]. split; [apply self_ok|]. split; discriminate.
  - exists (cased (bs "half") (bs "half") ++ spread sp " " ++ cased a a). split; [constructor; exact Aa|]. split; [rewrite !items_text_app, spread_text, !self_text; reflexivity|].
    apply Forall_app in P as [_ P]. apply Forall_app in P as [P _].
    split; [|split; discriminate]. apply Forall_app. split; [apply self_ok|]. apply Forall_app. split; [apply (spread_ok _ _ _ _ rl_blank (plain_run sp B P))|apply self_ok].
Qed.
(** the amount and the white space around it: one run of white space if there is no amount *)
Definition phrase_parts (tx kw s1 n s2 : bytes) (w : string) : Prop := tx = kw ++ s1 ++ n ++ s2 ++ bs w /\ spaces s1 /\ spaces s2 /\ plain_spaces n /\ (n = [] -> s2 = []).
Lemma relative_search tx kw s1 n q s2 w : phrase_parts tx kw s1 n s2 w -> rel_amount n q -> kw = bs "this" \/ (exists s, heads kw s) -> In w unit_names ->
  exists m, search true relative_re tx = Some m /\ m_pos m = 0%nat /\ m_str m = tx /\ grp m 2 = kw /\ grp m 3 = n /\ grp m 4 = bs w.
Proof.
  intros (E & S1 & S2 & P & N0) A K I. destruct (amount_items n q A P) as (N & Ao & TN & FN & Z).
  pose proof (rel_run kw s1 n N s2 w K I Ao (fun e => N0 (proj1 Z e))) as R.
  assert (T : items_text (rel_items kw s1 N s2 w) = tx). { unfold rel_items. rewrite !items_text_app, !spread_text, !self_text, TN, E. reflexivity. }
  assert (F : Forall (item_ok' true relative_re) (rel_items kw s1 N s2 w)).
  { unfold rel_items. apply Forall_app. split; [apply self_ok|]. apply Forall_app. split; [apply (spread_ok _ _ _ _ rl_blank S1)|]. apply Forall_app. split; [exact FN|].
    apply Forall_app. split; [apply (spread_ok _ _ _ _ rl_blank S2)|apply self_ok]. }
  pose proof (open_search true relative_re closed [] _ _ eq_refl F R) as S. rewrite app_nil_r, T in S. eexists. split; [exact S|]. split; [reflexivity|]. split; [exact T|].
  unfold rel_caps. split; [|split]; (destruct N as [|i N]; cbn [app yres grp m_caps caps_text map fst snd cap_lookup Nat.eqb]; [try (rewrite self_text; reflexivity)|try (rewrite self_text; reflexivity)]).
  - rewrite (proj1 Z eq_refl). reflexivity.
  - exact TN.
Qed.
Lemma relative_alone e text t us m r : real_instant t us -> search true relative_re (to_lower text) = Some m -> m_pos m = 0%nat -> m_str m = to_lower text ->
  relative_extract e gwords_init (to_lower text) m (ptime_of t us) 0 = Ret r -> hasPossibleDates r = true ->
  x_res (execute e relative gwords_init text (ptime_of t us)) = Ret [res_copy r].
Proof.
  intros H S P M X Q. rewrite (execute_whole e relative gwords_init text (ptime_of t us) relative_re m gwords_init r relative_compile ltac:(apply Nat.leb_le; vm_compute; reflexivity) S P M); auto.
  cbn [p_extract relative]. unfold pure_extract. rewrite X. reflexivity.
Qed.
Lemma full_name w u : In (w, u) full_units -> In w unit_names.
Proof. intros I. apply in_or_app. left. apply (in_map fst _ _ I). Qed.

(** C41: "this week" is one result, the Sunday-to-Saturday week of the reference date (if Boost can represent both its ends); all implied. *)
Theorem C41_this_week : forall e text t us sp w a b, real_instant t us -> to_lower text = bs "this" ++ sp ++ bs w -> spaces sp -> In (w, UWeek) full_units ->
  week_of (mdate t) a b -> real_date a -> real_date b ->
  exists res, x_res (execute e relative gwords_init text (ptime_of t us)) = Ret [res] /\ r_text res = to_lower text /\ r_index res = 0 /\ has_end res = true /\
    range_implied res a b /\ rd a <= rd (mdate t) <= rd b.
Proof.
  intros e text t us sp w a b H E S I W Ra Rb.
  destruct (relative_search (to_lower text) (bs "this") sp [] (Whole 1) [] w) as (m & Sm & Pm & Em & G2 & G3 & G4);
    [split; [exact E|repeat split; auto; constructor]|constructor|auto|apply (full_name _ _ I)|].
  exists (res_copy (week_range a b (res_new (ptime_of t us) 0 (to_lower text)))). split.
  - apply (relative_alone e text t us m _ H Sm Pm Em); [|apply (possible_start _ (cm a)); [reflexivity|apply Ra]].
    rewrite (relative_unfold e gwords_init _ m _ 0 _ (pt_date_of _ _ H)), G2, G3, G4. cbn [grp]. rewrite Em. change (relative_amount gwords_init []) with (Some (FInt 1)). cbn [is_nil].
    change (beq (bs "this") (bs "this")) with true. cbv iota. apply (this_week w I t us a b _ H W Ra Rb).
  - split; [reflexivity|]. split; [reflexivity|]. split; [reflexivity|]. split; [split; comps|]. destruct W as (_ & _ & n & Hn & [_ D1] & [_ D2]). lia.
Qed.
Print Assumptions C41_this_week.
(** "this month" is the first to the last day of the month of the reference date: month and year certain, day implied. *)
Theorem C41_this_month : forall e text t us sp w a b, real_instant t us -> to_lower text = bs "this" ++ sp ++ bs w -> spaces sp -> In (w, UMonth) full_units ->
  month_of (mdate t) a b ->
  exists res, x_res (execute e relative gwords_init text (ptime_of t us)) = Ret [res] /\ r_text res = to_lower text /\ r_index res = 0 /\ has_end res = true /\
    range_month res a b /\ real_date a /\ real_date b /\ rd a <= rd (mdate t) <= rd b.
Proof.
  intros e text t us sp w a b H E S I [Ea Eb].
  destruct (relative_search (to_lower text) (bs "this") sp [] (Whole 1) [] w) as (m & Sm & Pm & Em & G2 & G3 & G4);
    [split; [exact E|repeat split; auto; constructor]|constructor|auto|apply (full_name _ _ I)|].
  exists (res_copy (month_range (cy (mdate t)) (cm (mdate t)) (res_new (ptime_of t us) 0 (to_lower text)))). split.
  - apply (relative_alone e text t us m _ H Sm Pm Em); [|apply (possible_start _ (cm (mdate t))); [reflexivity|apply H]].
    rewrite (relative_unfold e gwords_init _ m _ 0 _ (pt_date_of _ _ H)), G2, G3, G4. cbn [grp]. rewrite Em. change (relative_amount gwords_init []) with (Some (FInt 1)). cbn [is_nil].
    change (beq (bs "this") (bs "this")) with true. cbv iota. apply (this_month w I t us _ H).
  - split; [reflexivity|]. split; [reflexivity|]. split; [reflexivity|]. destruct (month_ends t us H) as [Ra Rb]. subst a b. split; [unfold range_month; comps|].
    split; [exact Ra|]. split; [exact Rb|]. destruct H as [[[[_ D] _] _] _]. unfold rd. cbn [cy cm cd]. lia.
Qed.
Print Assumptions C41_this_month.
Lemma in_year c : valid c -> rd (Cal (cy c) 1 1) <= rd c <= rd (Cal (cy c) 12 31).
Proof.
  intros [Hm Hd]. destruct c as [y m d]. unfold rd. cbn [cy cm cd] in *. 
  enough (0 <= days_before_month y m /\ days_before_month y m + month_len y m <= days_before_month y 12 + 31 /\ days_before_month y 1 = 0) by lia.
  by_month Hm; unfold days_before_month, month_len; cal_cbn; destruct (is_leap y); lia.
Qed.
(** "this year" is 1 January to 31 December of the year of the reference date: the year certain, the rest implied. *)
Theorem C41_this_year : forall e text t us sp w a b, real_instant t us -> to_lower text = bs "this" ++ sp ++ bs w -> spaces sp -> In (w, UYear) full_units ->
  year_of (mdate t) a b ->
  exists res, x_res (execute e relative gwords_init text (ptime_of t us)) = Ret [res] /\ r_text res = to_lower text /\ r_index res = 0 /\ has_end res = true /\
    range_year res a b /\ real_date a /\ real_date b /\ rd a <= rd (mdate t) <= rd b.
Proof.
  intros e text t us sp w a b H E S I [Ea Eb].
  destruct (relative_search (to_lower text) (bs "this") sp [] (Whole 1) [] w) as (m & Sm & Pm & Em & G2 & G3 & G4);
    [split; [exact E|repeat split; auto; constructor]|constructor|auto|apply (full_name _ _ I)|].
  exists (res_copy (year_range (cy (mdate t)) (res_new (ptime_of t us) 0 (to_lower text)))). split.
  - apply (relative_alone e text t us m _ H Sm Pm Em); [|apply (possible_start _ 1); [reflexivity|lia]].
    rewrite (relative_unfold e gwords_init _ m _ 0 _ (pt_date_of _ _ H)), G2, G3, G4. cbn [grp]. rewrite Em. change (relative_amount gwords_init []) with (Some (FInt 1)). cbn [is_nil].
    change (beq (bs "this") (bs "this")) with true. cbv iota. apply (this_year w I t us _ H).
  - split; [reflexivity|]. split; [reflexivity|]. split; [reflexivity|]. destruct (year_ends t us H) as [Ra Rb]. subst a b. split; [unfold range_year; comps|].
    split; [exact Ra|]. split; [exact Rb|]. apply in_year. apply H.
Qed.
Print Assumptions C41_this_year.
(** every reference has such a week, and in the years 1401 to 9998 Boost can represent it *)
Theorem C41_week_exists : forall c, real_date c -> 1400 < cy c < 9999 -> exists a b, week_of c a b /\ real_date a /\ real_date b.
Proof.
  intros c R Hy. pose proof (weekday_range c) as W. destruct R as [V _].
  assert (B1 : LO + 7 <= dn_of c <= HI - 7).
  { pose proof (rd_lt (Cal 1400 12 31) c ltac:(concrete) V ltac:(cbn; lia)) as L1. pose proof (rd_lt c (Cal 9999 1 1) V ltac:(concrete) ltac:(cbn; lia)) as L2.
    change (rd (Cal 1400 12 31)) with 511339 in L1. change (rd (Cal 9999 1 1)) with 3651695 in L2. unfold dn_of, LO, HI, JDN0. lia. }
  destruct (dn_real (dn_of c - weekday c)) as (a & Ra & Ea); [lia|]. destruct (dn_real (dn_of c + u16 (6 - weekday c))) as (b & Rb & Eb); [unfold u16; rewrite Z.mod_small by lia; lia|].
  exists a, b. split; [apply ends_week; auto|auto].
Qed.
Print Assumptions C41_week_exists.
(** At the very end of Boost's range the Saturday is missing and the call throws. *)
Theorem C41_last_week_throws : let t := Moment (Cal 9999 12 31) 12 0 0 in real_instant t 0 /\
  x_res (execute strict_env relative gwords_init (bs "this week") (ptime_of t 0)) = Throw OutOfRange.
Proof. cbv zeta. split; [inst|]. vm_compute; reflexivity. Qed.
Print Assumptions C41_last_week_throws.
Example C41_case : exists r, let t := Moment (Cal 2024 2 29) 5 6 7 in real_instant t 1 /\
  to_lower (bs "This  Week") = bs "this" ++ bs "  " ++ bs "week" /\ spaces (bs "  ") /\ In ("week", UWeek) full_units /\
  week_of (Cal 2024 2 29) (Cal 2024 2 25) (Cal 2024 3 2) /\ month_of (Cal 2024 2 29) (Cal 2024 2 1) (Cal 2024 2 29) /\
  x_res (execute strict_env relative gwords_init (bs "This  Week") (ptime_of t 1)) = Ret [r] /\ toDate r = Ret (bs "2024-Feb-25 00:00:00 - 2024-Mar-02 00:00:00").
Proof.
  eexists. cbv zeta. split; [inst|]. split; [reflexivity|]. split; [repeat constructor|]. split; [cbn; tauto|].
  split; [split; [reflexivity|]; split; [reflexivity|]; exists 4; split; [lia|]; split; concrete|]. split; [split; reflexivity|]. split; [vm_compute; reflexivity|]. vm_compute; reflexivity.
Qed.

(** ** next, last, past *)
(** C42 is false of number words and of "min(s)". *)
Theorem C42_number_words_refuted : exists c t', let t := Moment (Cal 2024 1 2) 12 0 0 in real_instant t 0 /\
  days_after 14 (mdate t) c /\ real_date c /\ x_res (execute (benign_env "x") relative gwords_init (bs "next two weeks") (ptime_of t 0)) = Ret [] /\
  seconds_after 300 t t' /\ real_moment t' /\ exists r, x_res (execute strict_env relative gwords_init (bs "next 5 mins") (ptime_of t 0)) = Ret [r] /\ toDate r = Ret (bs "2024-Jan-02 12:00:00").
Proof.
  exists (Cal 2024 1 16), (Moment (Cal 2024 1 2) 12 5 0). cbv zeta. split; [inst|]. split; [concrete|]. split; [inst|]. split.
  { vm_compute; reflexivity. }
  split; [concrete|]. split; [concrete|]. eexists. split; [vm_compute; reflexivity|]. vm_compute; reflexivity.
Qed.
Print Assumptions C42_number_words_refuted.

Lemma next_alone e text t us kw s s1 n q s2 w u r : real_instant t us -> phrase_parts (to_lower text) kw s1 n s2 w -> heads kw s -> rel_amount n q -> In (w, u) full_units ->
  (forall k, q = Whole k -> k <= 2 ^ 24) ->
  rel_kind (num_of q) s u (ptime_of t us) (dn_of (mdate t)) (res_new (ptime_of t us) 0 (to_lower text)) = Ret r ->
  x_res (execute e relative gwords_init text (ptime_of t us)) = Ret [res_copy r].
Proof.
  intros H Ph Hd A I Hk X. destruct (heads_sign kw s Hd) as (E1 & E2 & E3).
  destruct (relative_search (to_lower text) kw s1 n q s2 w Ph A (or_intror (ex_intro _ s Hd)) (full_name _ _ I)) as (m & Sm & Pm & Em & G2 & G3 & G4).
  assert (Q : (forall k, q = Whole k -> 0 <= k) /\ relative_amount gwords_init n = Some (num_of q)).
  { destruct A as [|n D N| | |sp a B Aa].
    - split; [intros k E; injection E as <-; lia|reflexivity].
    - pose proof (decimal_bounds n D) as B. specialize (Hk _ eq_refl). split; [intros k E; injection E as <-; lia|]. rewrite digits_amount by assumption. cbn [num_of]. rewrite fround_small by lia.
      replace (decimal n <? 2 ^ 128) with true; [reflexivity|]. symmetry. apply Z.ltb_lt. apply (Z.le_lt_trans _ (2 ^ 24)); [exact Hk|reflexivity].
    - split; [intros k E; injection E as <-; lia|reflexivity].
    - split; [discriminate|reflexivity].
    - split; [discriminate|]. destruct (half_first sp a B Aa) as (F1 & F2 & F3). unfold relative_amount. rewrite F3, F1, F2. reflexivity. }
  destruct Q as [Hq Aq].
  apply (relative_alone e text t us m _ H Sm Pm Em); [|apply (rel_kind_inv s q u t us 0 (to_lower text) r E3 Hq H X)].
  rewrite (relative_unfold e gwords_init _ m _ 0 _ (pt_date_of _ _ H)), G2, G3, G4. cbn [grp]. rewrite Em, Aq, E1, E2. rewrite (rel_rest_kind w u I). exact X.
Qed.
Lemma amount_nonneg n q : rel_amount n q -> forall k, q = Whole k -> 0 <= k.
Proof. intros A k ->. inversion A as [|? D N| | |]; subst; try lia. apply (decimal_bounds n D). Qed.

(** Part of C42 (missing: number words and "min", for which it is false).  Days, weeks, months, years, and halves of weeks, months and years:
    one result, the date moved by the amount, implied, the clock untouched.  Month shifts up to 32767 months. *)
Theorem C42_next_date_partial : forall e text t us kw s s1 n q s2 w u c, real_instant t us -> phrase_parts (to_lower text) kw s1 n s2 w -> heads kw s -> rel_amount n q -> In (w, u) full_units ->
  (forall k, q = Whole k -> k <= 2 ^ 24) -> date_away s q u (mdate t) c -> real_date c -> months_modelled q u ->
  exists res, x_res (execute e relative gwords_init text (ptime_of t us)) = Ret [res] /\ r_text res = to_lower text /\ r_index res = 0 /\ has_end res = false /\
    date_implied (r_start res) c /\ untouched [WDay; Hour; Min; Sec; TzOffset] (r_start res).
Proof.
  intros e text t us kw s s1 n q s2 w u c H Ph Hd A I Hk D R M. destruct (heads_sign kw s Hd) as (_ & _ & E3).
  eexists. split; [apply (next_alone e text t us kw s s1 n q s2 w u _ H Ph Hd A I Hk (rel_kind_date s q u t us 0 (to_lower text) c E3 (amount_nonneg n q A) H D R M))|].
  split; [reflexivity|]. split; [reflexivity|]. split; [reflexivity|]. split; comps.
Qed.
Print Assumptions C42_next_date_partial.
(** Hours, minutes and seconds, and their halves: the moment moved by the amount, implied. *)
Theorem C42_next_clock_partial : forall e text t us kw s s1 n q s2 w u secs t', real_instant t us -> phrase_parts (to_lower text) kw s1 n s2 w -> heads kw s -> rel_amount n q -> In (w, u) full_units ->
  (forall k, q = Whole k -> k <= 2 ^ 24) -> seconds_in q u = Some secs -> seconds_after (s * secs) t t' -> real_date (mdate t') ->
  exists res, x_res (execute e relative gwords_init text (ptime_of t us)) = Ret [res] /\ r_text res = to_lower text /\ r_index res = 0 /\ has_end res = false /\
    denotes (r_start res) t' /\ date_implied (r_start res) (mdate t') /\ clock_implied (r_start res) t'.
Proof.
  intros e text t us kw s s1 n q s2 w u secs t' H Ph Hd A I Hk D Sa R. destruct (heads_sign kw s Hd) as (_ & _ & E3). pose proof (amount_nonneg n q A) as Hn.
  assert (Hk' : forall k, q = Whole k -> 0 <= k <= 2 ^ 24) by (intros k E; split; auto).
  eexists. split; [apply (next_alone e text t us kw s s1 n q s2 w u _ H Ph Hd A I Hk (rel_kind_clock s q u t us 0 (to_lower text) secs t' E3 Hk' H D Sa R))|].
  split; [reflexivity|]. split; [reflexivity|]. split; [reflexivity|]. split; [repeat split|]. split; [|unfold clock_implied]; comps.
Qed.
Print Assumptions C42_next_clock_partial.
(** Half a day: twelve hours, date, hour and minute implied. *)
Theorem C42_next_half_day_partial : forall e text t us kw s s1 n s2 w t', real_instant t us -> phrase_parts (to_lower text) kw s1 n s2 w -> heads kw s -> rel_amount n Half -> In (w, UDay) full_units ->
  seconds_after (s * 43200) t t' -> real_date (mdate t') ->
  exists res, x_res (execute e relative gwords_init text (ptime_of t us)) = Ret [res] /\ r_text res = to_lower text /\ r_index res = 0 /\ has_end res = false /\
    date_implied (r_start res) (mdate t') /\ implied_is Hour (mhour t') (r_start res) /\ implied_is Min (mmin t') (r_start res) /\ untouched [WDay; Sec; TzOffset] (r_start res).
Proof.
  intros e text t us kw s s1 n s2 w t' H Ph Hd A I Sa R. destruct (heads_sign kw s Hd) as (_ & _ & E3).
  eexists. split; [apply (next_alone e text t us kw s s1 n Half s2 w UDay _ H Ph Hd A I ltac:(discriminate) (rel_kind_half_day s t us 0 (to_lower text) t' E3 H Sa R))|].
  split; [reflexivity|]. split; [reflexivity|]. split; [reflexivity|]. repeat split; comps.
Qed.
Print Assumptions C42_next_half_day_partial.
(** "min" and "mins" are accepted and stand for nothing: the reference moment itself. *)
Theorem C42_min_partial : forall e text t us kw s s1 n q s2 w, real_instant t us -> phrase_parts (to_lower text) kw s1 n s2 w -> heads kw s -> rel_amount n q -> w = "min" \/ w = "mins" ->
  (forall k, q = Whole k -> k <= 2 ^ 24) ->
  exists res, x_res (execute e relative gwords_init text (ptime_of t us)) = Ret [res] /\ r_text res = to_lower text /\ denotes (r_start res) t.
Proof.
  intros e text t us kw s s1 n q s2 w H Ph Hd A I Hk. destruct (heads_sign kw s Hd) as (E1 & E2 & E3).
  assert (Iw : In w unit_names) by (destruct I as [-> | ->]; vm_compute; tauto).
  destruct (relative_search (to_lower text) kw s1 n q s2 w Ph A (or_intror (ex_intro _ s Hd)) Iw) as (m & Sm & Pm & Em & G2 & G3 & G4).
  assert (Aq : exists f, relative_amount gwords_init n = Some f).
  { destruct A as [|n D N| | |sp a B Aa]; try (eexists; reflexivity).
    - pose proof (decimal_bounds n D) as B. specialize (Hk _ eq_refl). rewrite digits_amount by assumption. rewrite fround_small by lia.
      replace (decimal n <? 2 ^ 128) with true; [eauto|]. symmetry. apply Z.ltb_lt. apply (Z.le_lt_trans _ (2 ^ 24)); [exact Hk|reflexivity].
    - destruct (half_first sp a B Aa) as (F1 & F2 & F3). unfold relative_amount. rewrite F3, F1, F2. cbn. eauto. }
  destruct Aq as [f Aq].
  assert (Mi : bs w = bs "min" \/ bs w = bs "mins") by (destruct I as [-> | ->]; auto).
  exists (res_copy (setTag TRelative (on_start (stamped t) (res_new (ptime_of t us) 0 (to_lower text))))). split; [|split; [reflexivity|repeat split]].
  apply (relative_alone e text t us m _ H Sm Pm Em); [|apply (possible_start _ (cm (mdate t))); [reflexivity|apply H]].
  rewrite (relative_unfold e gwords_init _ m _ 0 _ (pt_date_of _ _ H)), G2, G3, G4. cbn [grp]. rewrite Em, Aq, E1, E2. rewrite (rel_rest_min _ Mi). apply clock_rest_at. exact H.
Qed.
Print Assumptions C42_min_partial.
Example C42_case : exists r, let t := Moment (Cal 2024 3 31) 23 10 0 in
  real_instant t 3 /\ phrase_parts (to_lower (bs "PAST 13 Months")) (bs "past") (bs " ") (bs "13") (bs " ") "months" /\ heads (bs "past") (-1) /\ rel_amount (bs "13") (Whole 13) /\
  In ("months", UMonth) full_units /\ date_away (-1) (Whole 13) UMonth (Cal 2024 3 31) (Cal 2023 2 28) /\ real_date (Cal 2023 2 28) /\
  seconds_after (1 * 1800) t (Moment (Cal 2024 3 31) 23 40 0) /\ rel_amount (bs "half an") Half /\
  x_res (execute strict_env relative gwords_init (bs "PAST 13 Months") (ptime_of t 3)) = Ret [r] /\ toDate r = Ret (bs "2023-Feb-28 00:00:00").
Proof.
  eexists. cbv zeta. split; [inst|]. split; [split; [reflexivity|]; split; [repeat constructor|]; split; [repeat constructor|]; split; [repeat constructor; discriminate|discriminate]|].
  split; [right; auto|]. split; [apply (ra_digits (bs "13")); [repeat constructor|discriminate]|]. split; [cbn; tauto|]. split; [concrete|]. split; [inst|]. split; [concrete|].
  split; [apply (ra_half_a (bs " ") (bs "an")); [repeat constructor|right; reflexivity]|]. split; [vm_compute; reflexivity|]. vm_compute; reflexivity.
Qed.
