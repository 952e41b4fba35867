(** * US holidays (C30, C31, C32) *)
From Verif Require Import Base Regex RegexParse Calendar Components Utils Execute Spec View ParserSpec CalendarCycle CalendarFacts RegexFacts ResultFacts Template
  ExecuteFacts ParserRe MatchFacts LocateFacts HistoryFacts ParserFacts CasualFacts Symbolic DeadlineFacts ISOFacts HolidayFacts Main P_Holiday Prop_Execute Prop_Casual.
From Coq Require Import ZifyBool ZifyNat ZifyN.
Open Scope string_scope.
Open Scope list_scope.
Open Scope Z_scope.

Lemma in_holiday : In holiday all_parsers. Proof. cbn; tauto. Qed.
Lemma low_day d : low d -> d = [] \/ lang true ho_day d -> day_word d.
Proof. intros Lw [->|L]; [left; reflexivity|]. word_cases L. right. reflexivity. Qed.
Lemma nothing_impossible res : nothing_on res -> hasPossibleDates res = false.
Proof.
  intros (U & H & M & E). unfold untouched in U. repeat match goal with F : Forall _ (_ :: _) |- _ => inversion F as [|? ? (? & ? & ?) ?]; clear F; subst end. cbn [api_get] in *.
  unfold hasPossibleDates. unfold has_end in E. rewrite H, M, E. repeat match goal with F : ?g (r_start res) = 0 |- _ => rewrite F; clear F end. reflexivity.
Qed.

(** C30, every result of every text: its text is a holiday name, white space and possibly "day"; and it is the date of that holiday in the reference
    year.  (Black Friday is C31; the one remaining name, "christmas", needs a backslash in the text, see C32.) *)
Theorem C30_every_holiday : forall e g text t us rs res, sane e -> real_instant t us ->
  x_res (execute e holiday g text (ptime_of t us)) = Ret rs -> In res rs ->
  exists n sp d, r_text res = n ++ sp ++ d /\ blanks sp /\ sp <> [] /\ (d = [] \/ d = bs "day") /\ has_end res = false /\
    ((exists r, holiday_name blanks n r /\ holiday_on r (cy (mdate t)) res) \/ (black_friday n /\ black_on (cy (mdate t)) res) \/ In backslash n).
Proof.
  intros e g text t us rs res He H X I.
  destruct (results_from_pure e holiday_pattern holiday_extract g text _ rs res holiday_re He in_holiday holiday_compile X I) as (off & m & r0 & S & L & Xr & P & ->).
  destruct (holiday_match _ _ S) as (pre & post & w & sp & d & E & _ & Em & Lw & B & N & D & _).
  assert (Lm : low (m_str m)) by (rewrite E in L; eapply low_part; exact L). rewrite Em in Lm. apply low_app in Lm as [Low Lm]. apply low_app in Lm as [_ Lod].
  pose proof (low_day d Lod D) as Dw. destruct (holiday_by_pick e g (skipn off (to_lower text)) m t us (Z.of_nat (off + m_pos m)) H) as (r1 & X1 & (T & _ & En) & Pk).
  rewrite X1 in Xr. injection Xr as <-. exists w, sp, d. cbn [r_text res_copy has_end r_hasend]. unfold has_end in En. rewrite T, En, Em. do 5 (split; [auto|]).
  destruct (pick_word w sp d Low Lw B N Dw) as [Bk|Pw]; [auto|]. rewrite <- Em in Pw. destruct (pick (m_str m)) as [r| |].
  - left. exists r. split; [exact Pw|]. exact Pk.
  - right. left. split; [exact Pw|exact Pk].
  - rewrite (nothing_impossible _ Pk) in P. discriminate.
Qed.
Print Assumptions C30_every_holiday.

(** the names with single spaces *)
Definition plain_names : list (string * holiday_rule) :=
  holiday_table ++ [("new year's", OnDate 1 1); ("new year's eve", OnDate 12 31); ("martin luther king jr", king_rule); ("martin luther king jnr", king_rule); ("martin luther king junior", king_rule)]%string.
Lemma plain_is_name x r : In (x, r) plain_names -> holiday_name one_space (bs x) r.
Proof.
  intros I. apply in_app_or in I as [I|I]; [left; eauto|]. cbn in I. decompose [or] I; try contradiction; match goal with E : (_, _) = (_, _) |- _ => injection E as <- <- end.
  - right; left. split; [reflexivity|]. exists (bs " "). split; reflexivity.
  - right; right; left. split; [reflexivity|]. exists (bs " "), (bs " "). repeat split; repeat constructor.
  - right; right; right. split; [reflexivity|]. exists (bs " "), (bs " "), (bs " "), "jr". repeat split; repeat constructor; cbn; tauto.
  - right; right; right. split; [reflexivity|]. exists (bs " "), (bs " "), (bs " "), "jnr". repeat split; repeat constructor; cbn; tauto.
  - right; right; right. split; [reflexivity|]. exists (bs " "), (bs " "), (bs " "), "junior". repeat split; repeat constructor; cbn; tauto.
Qed.
Lemma ho_space : class_alike true holiday_re is_space " " = true.
Proof. vm_compute. reflexivity. Qed.
Definition holiday_texts : list string := (map fst plain_names ++ ["black friday"])%list.
Lemma holiday_search x b : In x holiday_texts -> is_space b = true ->
  exists m, search true holiday_re (bs x ++ [b] ++ bs "day") = Some m /\ m_pos m = 0%nat /\ m_str m = bs x ++ [b] ++ bs "day".
Proof.
  intros I Hb.
  assert (E : search true holiday_re (bs x ++ [b] ++ bs "day") = option_map act_res (zsearch_from true holiday_re None (lit (bs x) ++ [(b, " "%char)] ++ lit (bs "day")) 0)).
  { rewrite <- symbolic_search.
    - rewrite !acts_app, !acts_lit. reflexivity.
    - apply app_forall; [apply alike_lit|]. apply app_forall; [|apply alike_lit]. constructor; [|constructor]. apply (class_alike_ok _ _ _ _ ho_space). exact Hb. }
  rewrite E. clear E Hb. cbn in I. decompose [or] I; try contradiction; subst x; (eexists; split; [vm_compute; reflexivity|]; split; reflexivity).
Qed.

(** C30, the phrase on its own, in any letter case and with any blank character before "day": exactly one result. *)
Theorem C30_holiday_dates : forall e g text t us x r b, real_instant t us -> In (x, r) plain_names -> is_space b = true ->
  to_lower text = bs x ++ [b] ++ bs "day" ->
  exists res, x_res (execute e holiday g text (ptime_of t us)) = Ret [res] /\ r_text res = to_lower text /\ r_index res = 0 /\ has_end res = false /\
    holiday_on r (cy (mdate t)) res.
Proof.
  intros e g text t us x r b H I Hb E.
  destruct (holiday_search x b) as (m & S & Ps & Em); [apply in_or_app; left; exact (in_map fst _ _ I)|exact Hb|]. rewrite <- E in S, Em.
  destruct (holiday_by_pick e g (to_lower text) m t us 0 H) as (res & X & (T & Ix & En) & Pk).
  assert (Pn : pick (m_str m) = Rule r). { rewrite Em, E. apply pick_name; [apply plain_is_name; exact I|constructor; [exact Hb|constructor]|discriminate|right; reflexivity]. }
  rewrite Pn in Pk. exists (res_copy res). split.
  - rewrite (execute_whole e holiday g text (ptime_of t us) holiday_re m g res holiday_compile); auto.
    + apply Nat.leb_le. vm_compute. reflexivity.
    + cbn [p_extract holiday]. unfold pure_extract. rewrite X. reflexivity.
    + destruct Pk as (c & Rc & _ & D & _). eapply date_certain_possible; eauto.
  - cbn [r_text r_index res_copy]. rewrite T, Em, Ix. repeat (split; [first [reflexivity|exact En]|]). exact Pk.
Qed.
Print Assumptions C30_holiday_dates.

Example C30_case : exists r, In ("memorial", LastDay 1 5) plain_names /\ last_weekday 1 2032 5 31 /\
  x_res (execute strict_env holiday gwords_init (bs "Memorial Day") (ptime_of (Moment (Cal 2032 1 2) 3 4 5) 0)) = Ret [r] /\ toDate r = Ret (bs "2032-May-31 00:00:00").
Proof.
  eexists. split; [cbn; tauto|]. split; [repeat split; vm_compute; congruence|]. split; [vm_compute; reflexivity|]. vm_compute; reflexivity.
Qed.

(** C31 is false: in 2024 Thanksgiving is 28 November, and "black friday" is rendered as the 30th. *)
Theorem C31_black_friday_refuted : exists r, nth_weekday 4 4 2024 11 28 /\
  x_res (execute strict_env holiday gwords_init (bs "black friday day") noon2024) = Ret [r] /\ toDate r = Ret (bs "2024-Nov-30 00:00:00") /\ certain WDay 6 (r_start r).
Proof.
  eexists. split; [repeat split; vm_compute; congruence|]. split; [vm_compute; reflexivity|]. split; [vm_compute; reflexivity|]. split; vm_compute; reflexivity.
Qed.
Print Assumptions C31_black_friday_refuted.
(** What holds in every year: it is recognised and denotes the Saturday, two days after the fourth Thursday of November, with weekday Saturday.
    (Missing: the Friday.) *)
Theorem C31_black_friday_partial : forall e g text t us b, real_instant t us -> is_space b = true -> to_lower text = bs "black friday" ++ [b] ++ bs "day" ->
  exists res d, x_res (execute e holiday g text (ptime_of t us)) = Ret [res] /\ nth_weekday 4 4 (cy (mdate t)) 11 d /\
    real_date (Cal (cy (mdate t)) 11 (d + 2)) /\ date_certain (r_start res) (Cal (cy (mdate t)) 11 (d + 2)) /\ certain WDay 6 (r_start res) /\
    weekday (Cal (cy (mdate t)) 11 (d + 2)) = 6.
Proof.
  intros e g text t us b H Hb E. pose proof (proj2 (proj1 (proj1 H))) as Hy.
  destruct (holiday_search "black friday" b) as (m & S & Ps & Em); [apply in_or_app; right; left; reflexivity|exact Hb|]. rewrite <- E in S, Em.
  destruct (holiday_by_pick e g (to_lower text) m t us 0 H) as (res & X & (T & Ix & En) & Pk).
  assert (Pn : pick (m_str m) = Black).
  { rewrite Em, E. unfold pick. assert (B : blanks [b]) by (constructor; [exact Hb|constructor]). assert (N : [b] <> []) by discriminate.
    assert (C1 : contains (bs "new year") (bs "black friday" ++ [b] ++ bs "day") = false).
    { apply (contains_no_prefix (bs "new") (bs " year")). rewrite contains_split by (first [assumption | discriminate | (apply solid_bs; reflexivity)]). reflexivity. }
    assert (C2 : contains (bs "martin luther king") (bs "black friday" ++ [b] ++ bs "day") = false).
    { apply (contains_no_prefix (bs "martin") (bs " luther king")). rewrite contains_split by (first [assumption | discriminate | (apply solid_bs; reflexivity)]). reflexivity. }
    rewrite C1, C2. repeat cont1. vm_compute. reflexivity. }
  rewrite Pn in Pk. destruct Pk as (d & Nw & D & W & Hh & Hm & U). exists (res_copy res), d.
  assert (R : real_date (Cal (cy (mdate t)) 11 (d + 2))) by (split; [apply nov_valid; destruct Nw as (_ & _ & B); lia|exact Hy]).
  split.
  - rewrite (execute_whole e holiday g text (ptime_of t us) holiday_re m g res holiday_compile); auto.
    + apply Nat.leb_le. vm_compute. reflexivity.
    + cbn [p_extract holiday]. unfold pure_extract. rewrite X. reflexivity.
    + eapply date_certain_possible; eauto.
  - do 4 (split; [assumption|]). destruct Nw as (_ & Wd & _). unfold weekday in *. rewrite (rd_day _ _ d). rewrite Z.add_mod, Wd by lia. replace (d + 2 - d) with 2 by lia. reflexivity.
Qed.
Print Assumptions C31_black_friday_partial.

(** C32 is false: none of "christmas", "christmas eve" and "thanksgiving" at the end of the text is recognised, and "new year's eve" there is 1 January. *)
Theorem C32_christmas_refuted :
  x_res (execute strict_env holiday gwords_init (bs "christmas") noon2024) = Ret [] /\ x_res (execute strict_env holiday gwords_init (bs "christmas eve") noon2024) = Ret [] /\
  x_res (execute strict_env holiday gwords_init (bs "at thanksgiving") noon2024) = Ret [] /\
  exists r, x_res (execute strict_env holiday gwords_init (bs "new year's eve") noon2024) = Ret [r] /\ toDate r = Ret (bs "2024-Jan-01 00:00:00").
Proof. do 3 (split; [vm_compute; reflexivity|]). eexists. split; [vm_compute; reflexivity|]. vm_compute; reflexivity. Qed.
Print Assumptions C32_christmas_refuted.

(** Christmas is never recognised: on a text without a backslash no result's text contains the word. *)
Theorem C32_christmas_never : forall e g text t us rs res, sane e -> real_instant t us -> ~ In backslash text ->
  x_res (execute e holiday g text (ptime_of t us)) = Ret rs -> In res rs -> contains (bs "christmas") (r_text res) = false.
Proof.
  intros e g text t us rs res He H Nb X I.
  destruct (results_from_pure e holiday_pattern holiday_extract g text _ rs res holiday_re He in_holiday holiday_compile X I) as (off & m & r0 & S & L & Xr & P & ->).
  destruct (holiday_match _ _ S) as (pre & post & w & sp & d & E & _ & Em & Lw & B & N & D & _).
  assert (Lm : low (m_str m)) by (rewrite E in L; eapply low_part; exact L). rewrite Em in Lm. apply low_app in Lm as [Low Lm]. apply low_app in Lm as [_ Lod].
  pose proof (low_day d Lod D) as Dw. destruct (holiday_by_pick e g (skipn off (to_lower text)) m t us (Z.of_nat (off + m_pos m)) H) as (r1 & X1 & (T & _ & _) & _).
  rewrite X1 in Xr. injection Xr as <-. cbn [r_text res_copy]. rewrite T, Em.
  assert (Nw : ~ In backslash w).
  { intros Iw. apply Nb. assert (Il : In backslash (to_lower text)).
    { rewrite <- (firstn_skipn off (to_lower text)). apply in_or_app. right. rewrite E. apply in_or_app. right. apply in_or_app. left. rewrite Em. apply in_or_app. left. exact Iw. }
    unfold to_lower in Il. apply in_map_iff in Il as (c & Ec & Ic).
    assert (Hc : implb (Ascii.eqb (lower c) backslash) (Ascii.eqb c backslash) = true) by (revert c Ec Ic; intros c _ _; revert c; apply forall_ascii; vm_compute; reflexivity).
    rewrite Ec in Hc. rewrite Ascii.eqb_refl in Hc. cbn [implb] in Hc. apply Ascii.eqb_eq in Hc. subst c. exact Ic. }
  assert (Sc : solid (bs "christmas")) by (apply solid_bs; reflexivity).
  destruct (ho_cases w Low Lw) as [Ib|[(x & r & Ix & ->)|[(s & -> & Bs)|[(s & s' & -> & Bs & Bs')|[(s & s' & s'' & j & -> & Bs & Bs' & Bs'' & J)|(s & -> & Bs)]]]]]; [contradiction|..];
    (destruct sp as [|c0 sp]; [congruence|]).
  - rewrite contains_split by (first [assumption|discriminate]). cbn in Ix. decompose [or] Ix; try contradiction; match goal with F : (_, _) = (_, _) |- _ => injection F as <- <- end; destruct Dw as [-> | ->]; vm_compute; reflexivity.
  - replace ((bs "new" ++ s ++ bs "year's") ++ (c0 :: sp) ++ d) with (joined (bs "new") [(s, bs "year's"); (c0 :: sp, d)]) by (cbn [joined]; rewrite <- ?app_assoc; reflexivity).
    rewrite joined_contains by (auto; try discriminate; repeat constructor; assumption). destruct s, Dw as [-> | ->]; vm_compute; reflexivity.
  - replace ((bs "new" ++ s ++ bs "year's" ++ s' ++ bs "eve") ++ (c0 :: sp) ++ d) with (joined (bs "new") [(s, bs "year's"); (s', bs "eve"); (c0 :: sp, d)]) by (cbn [joined]; rewrite <- ?app_assoc; reflexivity).
    rewrite joined_contains by (auto; try discriminate; repeat constructor; assumption). destruct s, s', Dw as [-> | ->]; vm_compute; reflexivity.
  - replace ((bs "martin" ++ s ++ bs "luther" ++ s' ++ bs "king" ++ s'' ++ bs j) ++ (c0 :: sp) ++ d) with (joined (bs "martin") [(s, bs "luther"); (s', bs "king"); (s'', bs j); (c0 :: sp, d)]) by (cbn [joined]; rewrite <- ?app_assoc; reflexivity).
    rewrite joined_contains by (auto; try discriminate; repeat constructor; assumption). cbn in J. decompose [or] J; try contradiction; subst j; destruct s, s', s'', Dw as [-> | ->]; vm_compute; reflexivity.
  - replace ((bs "black" ++ s ++ bs "friday") ++ (c0 :: sp) ++ d) with (joined (bs "black") [(s, bs "friday"); (c0 :: sp, d)]) by (cbn [joined]; rewrite <- ?app_assoc; reflexivity).
    rewrite joined_contains by (auto; try discriminate; repeat constructor; assumption). destruct s, Dw as [-> | ->]; vm_compute; reflexivity.
Qed.
Print Assumptions C32_christmas_never.

(** What holds of the four: followed by "day", New Year's Eve and Thanksgiving are recognised and have the right date.
    (Missing: Christmas, Christmas Eve, and any of them at the end of the text.) *)
Theorem C32_eve_and_thanksgiving_partial : forall e g text t us b, real_instant t us -> is_space b = true ->
  (to_lower text = bs "new year's eve" ++ [b] ++ bs "day" ->
     exists res, x_res (execute e holiday g text (ptime_of t us)) = Ret [res] /\ date_certain (r_start res) (Cal (cy (mdate t)) 12 31)) /\
  (to_lower text = bs "thanksgiving" ++ [b] ++ bs "day" ->
     exists res d, x_res (execute e holiday g text (ptime_of t us)) = Ret [res] /\ nth_weekday 4 4 (cy (mdate t)) 11 d /\ date_certain (r_start res) (Cal (cy (mdate t)) 11 d)).
Proof.
  intros e g text t us b H Hb. split; intros E.
  - destruct (C30_holiday_dates e g text t us "new year's eve" (OnDate 12 31) b H ltac:(cbn; tauto) Hb E) as (res & X & _ & _ & _ & (c & _ & (Ey & Em & Ed) & D & _)).
    exists res. split; [exact X|]. destruct c as [y m d]; cbn [cy cm cd] in *. subst. exact D.
  - destruct (C30_holiday_dates e g text t us "thanksgiving" (NthDay 4 4 11) b H ltac:(cbn; tauto) Hb E) as (res & X & _ & _ & _ & (c & _ & (Ey & Em & Nw) & D & _)).
    exists res, (cd c). split; [exact X|]. split; [exact Nw|]. destruct c as [y m d]; cbn [cy cm cd] in *. subst. exact D.
Qed.
Print Assumptions C32_eve_and_thanksgiving_partial.

(** C62.  The holiday parser returns normally on every text. *)
Theorem C62_holidays_return : forall e g text t us, benign e -> real_instant t us -> exists rs, x_res (execute e holiday g text (ptime_of t us)) = Ret rs.
Proof.
  intros e g text t us He H. apply (execute_total_pure e holiday_pattern holiday_extract holiday_re).
  - apply Nat.leb_le. vm_compute. reflexivity.
  - exact holiday_compile.
  - intros off m idx S L. destruct (holiday_by_pick e g (skipn off (to_lower text)) m t us idx H) as (res & X & _). exists res. split; [exact X|]. right. intros. apply He.
Qed.
Print Assumptions C62_holidays_return.
