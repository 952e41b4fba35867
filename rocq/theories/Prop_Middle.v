(** * "March 5", "Monday, May 5 to 7 2012" (C35-C37, C68) *)
From Verif Require Import Base Regex RegexParse Calendar Components Utils Execute Spec View ParserSpec PhraseSpec CalendarCycle CalendarFacts RegexFacts ResultFacts
  ExecuteFacts ParserRe MatchFacts LocateFacts HistoryFacts ParserFacts CasualFacts NumberFacts ISOFacts HolidayFacts MonthFacts OrdinalFacts Main P_MonthName P_MiddleEndian Prop_Execute Prop_Casual Prop_Month
  MiddleFacts MiddleMatch MiddleMean MiddleFamily MiddleRuns ClockSpec MiddleSpec.
From Coq Require Import ZifyBool ZifyNat ZifyN.
Open Scope string_scope.
Open Scope list_scope.
Open Scope Z_scope.

Lemma in_middle_endian : In middle_endian all_parsers. Proof. cbn; tauto. Qed.
Lemma min_middle : (1 <= min_len middle_endian_re)%nat.
Proof. apply Nat.leb_le. vm_compute. reflexivity. Qed.

(** ** C68, C35: every result of every text *)
Theorem C68_month_day_results : forall e g text t us rs res, sane e -> real_instant t us ->
  x_res (execute e middle_endian g text (ptime_of t us)) = Ret rs -> In res rs ->
  exists x, month_day_form (r_text res) x /\ 1 <= md_month x <= 12 /\ 1 <= md_day x <= 31 /\ month_day_said t x res.
Proof.
  intros e g text t us rs res He H X I.
  destruct (results_from_pure e middle_endian_pattern middle_endian_extract g text _ rs res middle_endian_re He in_middle_endian middle_endian_compile X I) as (off & m & r0 & S & L & Xr & P & ->).
  destruct (middle_endian_extracted e g _ m t us (Z.of_nat (off + m_pos m)) r0 H L S Xr) as [->|(x & F & Hm & Hd & Sd)]; [discriminate|].
  exists x. split; [exact F|]. split; [exact Hm|]. split; [exact Hd|]. destruct Sd as (y & Ym & D & U & En). exists y. split; [exact Ym|]. split; [exact D|]. split; [exact U|].
  unfold has_end, res_copy in *. cbn [r_hasend r_endc]. destruct (md_to x) as [[d b]|]; [|exact En]. destruct En as (E1 & E2). rewrite E1. auto.
Qed.
Print Assumptions C68_month_day_results.
Example C68_case : exists r, x_res (execute strict_env middle_endian gwords_init (bs "On Monday, January 5th to 7 2012 we met") noon2024) = Ret [r] /\
  certain Month 1 (r_start r) /\ certain MDay 5 (r_start r) /\ certain Year 2012 (r_start r) /\ certain WDay 1 (r_start r) /\ certain MDay 7 (r_endc r) /\ r_text r = bs "on monday, january 5th to 7 2012 ".
Proof. eexists. split; [vm_compute; reflexivity|]. repeat split; vm_compute; reflexivity. Qed.

(** C35 is false of the year: on 30 August 2023 the nearest 28 February is that of 2024, but 2023 is chosen. *)
Theorem C35_nearest_refuted : exists t r, real_instant t 0 /\ x_res (execute strict_env middle_endian gwords_init (bs "feb 28 was") (ptime_of t 0)) = Ret [r] /\
  certain Month 2 (r_start r) /\ certain MDay 28 (r_start r) /\ certain Year 2023 (r_start r) /\ ~ nearest_year_to (mdate t) 2 28 2023.
Proof.
  exists (Moment (Cal 2023 8 30) 12 0 0). eexists. split; [concrete|]. split; [vm_compute; reflexivity|]. do 3 (split; [split; vm_compute; reflexivity|]). intros (_ & N & _). specialize (N 2024 ltac:(cbn; lia)).
  vm_compute in N. congruence.
Qed.
Print Assumptions C35_nearest_refuted.
(** Every result of every text: month 1..12 and day 1..31 are certain, and so is the year, which is the written one or else the nearest.
    (Missing: without a written year 28 and 29 February may get a neighbouring year that is not the nearest; written years 0000..0099 without era mean
    2000..2099, and 1 BC and 542 BE count as not written.) *)
Theorem C35_month_day_partial : forall e g text t us rs res, sane e -> real_instant t us ->
  x_res (execute e middle_endian g text (ptime_of t us)) = Ret rs -> In res rs ->
  exists m d y, certain Month m (r_start res) /\ 1 <= m <= 12 /\ certain MDay d (r_start res) /\ 1 <= d <= 31 /\ certain Year y (r_start res) /\
    ((exists yy er, digits yy /\ occurs yy (r_text res) /\ ((er = NoEra -> 100 <= decimal yy) -> year_in_era er (decimal yy) <> -1 -> y = year_in_era er (decimal yy))) \/
     (cy (mdate t) - 1 <= y <= cy (mdate t) + 1 /\ (m <> 2 \/ d <= 27 -> nearest_year_to (mdate t) m d y))).
Proof.
  intros e g text t us rs res He H X I. destruct (C68_month_day_results e g text t us rs res He H X I) as (x & F & Hm & Hd & (y & Ym & (D1 & D2 & D3 & _) & _)).
  exists (md_month x), (md_day x), y. do 5 (split; [assumption|]). unfold year_meant in Ym. destruct F as (l & mw & sep & dw & sp & rg & yr & -> & _ & _ & _ & _ & _ & _ & _ & Yp).
  destruct (md_year x) as [[yy er]|]; [left|right; exact Ym]. destruct Ym as (Y1 & _ & _). exists yy, er. destruct Yp as (s & w & sp' & -> & _ & Wy & _).
  assert (Dy : digits yy /\ exists v, w = yy ++ v) by (inversion Wy; subst; eauto). destruct Dy as (Dy & v & ->). split; [exact Dy|]. split; [|exact Y1].
  exists (l ++ mw ++ sep ++ dw ++ sp ++ rg ++ s), (v ++ sp'). rewrite <- !app_assoc. reflexivity.
Qed.
Print Assumptions C35_month_day_partial.
Example C35_case : exists r, x_res (execute strict_env middle_endian gwords_init (bs "it was Dec 30 then") noon2024) = Ret [r] /\ certain Month 12 (r_start r) /\ certain MDay 30 (r_start r) /\ certain Year 2023 (r_start r).
Proof. eexists. split; [vm_compute; reflexivity|]. repeat split; vm_compute; reflexivity. Qed.

(** ** C37 *)
(** C37 is false: 29 February in a common reference year, any date when the reference is in the year 1400 or 9999, and texts with a dropped result. *)
Theorem C37_month_day_returns_refuted :
  (forall e g, x_res (execute e middle_endian g (bs "feb 29 was") (ptime_of (Moment (Cal 2023 8 30) 12 0 0) 0)) = Throw OutOfRange) /\
  (forall e g t us, real_instant t us -> cy (mdate t) = 1400 \/ cy (mdate t) = 9999 -> x_res (execute e middle_endian g (bs "march 5 was") (ptime_of t us)) = Throw OutOfRange) /\
  x_res (execute strict_env middle_endian gwords_init (bs "may. 5 was") noon2024) = UB UbStaleIter.
Proof.
  split; [|split; [|vm_compute; reflexivity]].
  - intros e g. unfold execute. cbn [p_pattern middle_endian]. change (compile middle_endian_pattern) with (compile (p_pattern middle_endian)). rewrite middle_endian_compile.
    change (to_lower (bs "feb 29 was")) with (bs "feb 29 was"). change (S (List.length (bs "feb 29 was"))) with 11%nat. cbn [exec_loop].
    destruct (search true middle_endian_re (bs "feb 29 was")) as [mm|] eqn:S; [|vm_compute in S; discriminate]. vm_compute in S. apply RegexFacts.some_inj in S. subst mm.
    cbn [p_extract middle_endian]. unfold pure_extract. match goal with |- context [middle_endian_extract e g ?a ?b ?c ?d] => replace (middle_endian_extract e g a b c d) with (@Throw result OutOfRange) by (symmetry; vm_compute; reflexivity) end. reflexivity.
  - intros e g t us H Hy. unfold execute. cbn [p_pattern middle_endian]. change (compile middle_endian_pattern) with (compile (p_pattern middle_endian)). rewrite middle_endian_compile.
    change (to_lower (bs "march 5 was")) with (bs "march 5 was"). change (S (List.length (bs "march 5 was"))) with 12%nat. cbn [exec_loop].
    destruct (search true middle_endian_re (bs "march 5 was")) as [mm|] eqn:S; [|vm_compute in S; discriminate]. vm_compute in S. apply RegexFacts.some_inj in S. subst mm.
    cbn [p_extract middle_endian]. unfold pure_extract. match goal with |- context [middle_endian_extract e g ?a ?b ?c ?d] => replace (middle_endian_extract e g a b c d) with (@Throw result OutOfRange) end; [reflexivity|].
    symmetry. match goal with |- middle_endian_extract _ _ _ ?mm _ _ = _ => 
      unfold middle_endian_extract; replace (middle_endian_year mm) with (@Ret Z (-1)) by (vm_compute; reflexivity);
      change (grp mm 5) with (bs "5"); change (grp mm 3) with (bs "march") end. match goal with |- context [if is_nil (bs "5") then ?a else ?b] => change (if is_nil (bs "5") then a else b) with (@Ret Z 5) end. cbn [bind]. change (u16 5) with 5.
    change (tbl_get (bs "march") MONTH_CONSTANTS) with 3. cbn [Z.eqb Z.ltb orb Pos.eqb Z.compare Pos.compare Pos.compare_cont]. rewrite pt_date_of by exact H. cbn [bind].
    unfold nearest_year. pose proof (proj1 (proj1 H)) as R. rewrite d_year_real by exact R. cbn [bind].
    assert (Rr : real_date (Cal (cy (mdate t)) 3 5)) by (split; [split; cbn [cy cm cd]; [lia|pose proof (month_len_bounds (cy (mdate t)) 3 ltac:(lia)); lia]|unfold in_range_year; cbn [cy]; lia]).
    pose proof (mk_date_real _ Rr) as Ed. cbn [cy cm cd] in Ed. rewrite Ed. cbn [bind]. unfold add_years.
    destruct Hy as [Hy|Hy].
    + rewrite (add_months_out _ (12 * -1) Rr) by (try lia; unfold in_range_year; rewrite year_of_shift by (cbn; lia); cbn [cy]; lia). reflexivity.
    + rewrite (add_months_real _ (12 * -1) Rr) by (try lia; unfold in_range_year; rewrite year_of_shift by (cbn; lia); cbn [cy]; lia). cbn [bind].
      rewrite (add_months_out _ (12 * 1) Rr) by (try lia; unfold in_range_year; rewrite year_of_shift by (cbn; lia); cbn [cy]; lia). reflexivity.
Qed.
Print Assumptions C37_month_day_returns_refuted.

(** every "month day" written in the text is a day of the reference year *)
Definition days_exist (y : Z) (tx : bytes) : Prop :=
  forall mw mo sep dw d, month_word mw mo -> date_separator sep -> mday_word dw d -> occurs (mw ++ sep ++ dw) tx -> 1 <= d <= month_len y mo.
(** On every text without "may." whose month-days all exist in the reference year it returns, for references of the years 1401 to 9998.
    (Missing: texts naming a day the reference year does not have, "may.", the first and the last supported year.) *)
Theorem C37_month_day_returns_partial : forall e g text t us, real_instant t us -> 1401 <= cy (mdate t) <= 9998 -> ~ occurs (bs "may.") (to_lower text) -> days_exist (cy (mdate t)) (to_lower text) ->
  exists rs, x_res (execute e middle_endian g text (ptime_of t us)) = Ret rs.
Proof.
  intros e g text t us H Hy Nm D. apply (execute_total_pure e middle_endian_pattern middle_endian_extract middle_endian_re); [exact min_middle|exact middle_endian_compile|].
  intros off m idx S L. assert (D' : days_exist (cy (mdate t)) (skipn off (to_lower text))) by (intros mw mo sep dw d A B C O; eapply (D mw mo sep dw d A B C), skip_occurs; exact O).
  assert (Mb : forall mw mo, month_word mw mo -> month_len (cy (mdate t)) mo <= 31).
  { intros mw mo M. assert (1 <= mo <= 12) by (destruct M as (s & [[I _]|[I _]]); cbn in I; decompose [or] I; try contradiction; match goal with E : (_, _) = (_, _) |- _ => injection E as <- <- end; lia).
    pose proof (month_len_bounds (cy (mdate t)) mo ltac:(lia)). lia. }
  destruct (middle_endian_returns e g _ m t us idx H Hy L S) as (r & X); [intros mw mo sep dw d A B C O _; apply (D' mw mo sep dw d A B C O)|]. exists r. split; [exact X|]. left.
  refine (middle_endian_possible e g _ m t us idx r H L S _ _ X); [intros O; apply Nm; eapply skip_occurs; exact O|]. intros mw mo sep dw d A B C O. pose proof (D' mw mo sep dw d A B C O). pose proof (Mb mw mo A). lia.
Qed.
Print Assumptions C37_month_day_returns_partial.
(** A dropped result is harmless when the iterator that the program advances past its reassigned string keeps its place. *)
Theorem C37_month_day_benign_partial : forall e g text t us, benign e -> real_instant t us -> 1401 <= cy (mdate t) <= 9998 ->
  (forall mw mo sep dw d, month_word mw mo -> date_separator sep -> mday_word dw d -> occurs (mw ++ sep ++ dw) (to_lower text) -> 1 <= d <= 31 -> d <= month_len (cy (mdate t)) mo) ->
  exists rs, x_res (execute e middle_endian g text (ptime_of t us)) = Ret rs.
Proof.
  intros e g text t us (_ & _ & He) H Hy D. apply (execute_total_pure e middle_endian_pattern middle_endian_extract middle_endian_re); [exact min_middle|exact middle_endian_compile|].
  intros off m idx S L. destruct (middle_endian_returns e g _ m t us idx H Hy L S) as (r & X); [|exists r; split; [exact X|right; exact He]].
  intros mw mo sep dw d A B C O. apply (D mw mo sep dw d A B C). eapply skip_occurs; exact O.
Qed.
Print Assumptions C37_month_day_benign_partial.
(** a simple class of texts that qualifies: the only digits are 1 and 2, and no ordinal above the twentieth is spelled out *)
Lemma occurs_mid a b c tx : occurs (a ++ b ++ c) tx -> occurs b tx.
Proof. intros (p & q & ->). exists (p ++ a), (c ++ q). rewrite <- !app_assoc. reflexivity. Qed.
Lemma occurs_chars {P : ascii -> Prop} w tx : occurs w tx -> Forall P tx -> Forall P w.
Proof. intros (p & q & ->) F. apply Forall_app in F as [_ F]. apply Forall_app in F as [F _]. exact F. Qed.
Lemma plain_days y tx : Forall (fun c => is_digit c = true -> c = "1"%char \/ c = "2"%char) tx -> ~ occurs (bs "twenty") tx -> ~ occurs (bs "thirt") tx -> days_exist y tx.
Proof.
  intros F N2 N3 mw mo sep dw d M _ W O.
  assert (B : 1 <= d <= 28).
  { assert (Od : occurs dw tx) by (apply (occurs_mid (mw ++ sep) dw []); rewrite app_nil_r, <- app_assoc; exact O). destruct W as [dd s D Ld _|w n Sn].
    - apply (occurs_mid [] dd s) in Od. pose proof (occurs_chars dd tx Od F) as Fd. destruct dd as [|a [|b [|? ?]]]; cbn in Ld; try lia.
      + inversion D; subst. inversion Fd; subst. match goal with Q : is_digit a = true -> _, R : is_digit a = true |- _ => destruct (Q R) as [-> | ->]; vm_compute; split; discriminate end.
      + inversion D as [|? ? Da D']; subst. inversion D' as [|? ? Db _]; subst. inversion Fd as [|? ? Qa F']; subst. inversion F' as [|? ? Qb _]; subst.
        destruct (Qa Da) as [-> | ->], (Qb Db) as [-> | ->]; vm_compute; split; discriminate.
    - destruct Sn as [s w n s' I G G'|s g w n s' I G Gg Ng G'|s g s' G Gg Ng G'].
      + assert (N30 : n <> 30). { intros ->. apply occurs_mid in Od. cbn in I. decompose [or] I; try contradiction; match goal with E : (_, _) = (_, _) |- _ => try discriminate E; injection E as <- end. apply N3. exact (occurs_mid [] (bs "thirt") (bs "ieth") tx Od). }
        cbn in I; decompose [or] I; try contradiction; match goal with E : (_, _) = (_, _) |- _ => injection E as <- <- end; try lia; congruence.
      + exfalso. apply N2. apply occurs_mid in Od. exact Od.
      + exfalso. apply N3. apply occurs_mid in Od. exact (occurs_mid [] (bs "thirt") (bs "y") tx Od). }
  assert (1 <= mo <= 12) by (destruct M as (s & [[I _]|[I _]]); cbn in I; decompose [or] I; try contradiction; match goal with E : (_, _) = (_, _) |- _ => injection E as <- <- end; lia).
  pose proof (month_len_bounds y mo ltac:(lia)). lia.
Qed.
Lemma contains_occurs u : forall t, occurs u t -> contains u t = true.
Proof.
  intros t (p & q & ->). induction p as [|c p IH]; cbn [app contains].
  - destruct (u ++ q) eqn:E; cbn [contains]; rewrite <- E; replace (starts_with u (u ++ q)) with true by (symmetry; clear; induction u as [|c u IH]; cbn; [reflexivity|rewrite Ascii.eqb_refl; exact IH]); reflexivity.
  - rewrite IH. apply orb_true_r.
Qed.
Lemma not_occurs u t : contains u t = false -> ~ occurs u t.
Proof. intros H O. rewrite contains_occurs in H by exact O. discriminate. Qed.
Example C37_case : let text := bs "from February 12 or the tenth: March 22 2122 we meet" in
  (forall y, days_exist y (to_lower text)) /\ ~ occurs (bs "may.") (to_lower text) /\
  exists rs, x_res (execute strict_env middle_endian gwords_init text noon2024) = Ret rs /\ List.length rs = 2%nat.
Proof.
  cbv zeta. split; [|split].
  - intros y. apply plain_days; [|apply not_occurs; vm_compute; reflexivity..].
    assert (F : forallb (fun c => implb (is_digit c) (Ascii.eqb c "1" || Ascii.eqb c "2")) (to_lower (bs "from February 12 or the tenth: March 22 2122 we meet")) = true) by (vm_compute; reflexivity).
    apply Forall_forall. intros c I D. pose proof (proj1 (forallb_forall _ _) F c I) as Q. cbv beta in Q. rewrite D in Q. apply orb_true_iff in Q as [Q|Q]; apply Ascii.eqb_eq in Q; auto.
  - apply not_occurs; vm_compute; reflexivity.
  - eexists. split; [vm_compute; reflexivity|]. vm_compute. reflexivity.
Qed.

(** ** C69, C36: plainly written dates followed by a word are found *)
Lemma execute_first e p g text ref r m g' res tx T : compile (p_pattern p) = Some r -> (1 <= min_len r)%nat -> to_lower text = tx ++ T ->
  search true r (tx ++ T) = Some m -> m_pos m = 0%nat -> m_str m = tx -> p_extract p e g (tx ++ T) m ref 0 = (g', Ret res) -> hasPossibleDates res = true -> search true r T = None ->
  x_res (execute e p g text ref) = Ret [res_copy res].
Proof.
  intros C Hr Et S Hp Hs X P N. unfold execute. rewrite C, Et. cbn [exec_loop]. rewrite S, Hp, Hs. replace (0 + List.length (tx ++ T) - List.length (tx ++ T))%nat with 0%nat by lia. cbn [Z.of_nat]. rewrite X, P. cbn [bind].
  rewrite substr_from_ok by (rewrite app_length; lia). rewrite Nat.add_0_l, skipn_app, skipn_all, Nat.sub_diag. cbn [app skipn].
  destruct (List.length (tx ++ T)) eqn:L; cbn [exec_loop]; [|rewrite N; reflexivity]. apply search_bounds in S; [|exact Hr]. rewrite Hs, app_length in *. lia.
Qed.
Lemma no_month_no_match T : low T -> ~ names_month T -> search true middle_endian_re T = None.
Proof.
  intros L N. destruct (search true middle_endian_re T) as [m|] eqn:S; [|reflexivity]. exfalso. apply N. destruct (middle_endian_match _ _ L S) as (pre & post & x & E & _ & O & G).
  assert (W : exists w mo v, month_word w mo /\ pa_month x = w ++ v).
  { destruct O as (_ & _ & [-> | (mo & M & _)] & _); [|exists (pa_month x), mo, []; rewrite app_nil_r; auto]. exists (bs "may"), 5, (bs "."). split; [|reflexivity]. exists "may". left. split; [cbn; tauto|reflexivity]. }
  destruct W as (w & mo & v & M & Ew). exists w, mo. split; [exact M|]. exists (pre ++ pa_lead x), (v ++ pa_sep x ++ pa_day x ++ pa_gap x ++ pa_to x ++ pa_yr x ++ post).
  rewrite E. pose proof G as (G0 & _). change (grp m 0) with (m_str m) in G0. rewrite G0. unfold me_text. rewrite Ew, <- !app_assoc. reflexivity.
Qed.
Lemma copy_said t x r : month_day_said t x r -> month_day_said t x (res_copy r).
Proof.
  intros (y & Ym & D & U & En). exists y. split; [exact Ym|]. split; [exact D|]. split; [exact U|]. unfold has_end, res_copy in *. cbn [r_hasend r_endc]. destruct (md_to x) as [[d b]|]; [|exact En]. destruct En as (E1 & E2). rewrite E1. auto.
Qed.
Lemma me_result_facts p ref idx mo d y : r_text (me_result p ref idx mo d y) = me_text p /\ (idx = 0 -> r_index (me_result p ref idx mo d y) = 0) /\ getMonth (r_start (me_result p ref idx mo d y)) = mo.
Proof. unfold me_result. destruct (pa_wd p), (pa_rg p) as [[[? ?] ?]|]; (split; [reflexivity|]; split; [intros ->; reflexivity|reflexivity]). Qed.
Lemma possible_me p ref idx mo d y : 1 <= mo -> hasPossibleDates (me_result p ref idx mo d y) = true.
Proof. intros H. unfold hasPossibleDates. destruct (me_result_facts p ref idx mo d y) as (_ & _ & ->). replace (mo =? 0) with false by lia. rewrite !andb_false_r. reflexivity. Qed.
Lemma scan_inv e p r text ref g l g' m : scan e p r text ref 0 g l g' -> search true r text = Some m ->
  exists g1 res l', p_extract p e g text m ref (Z.of_nat (m_pos m)) = (g1, Ret res) /\ l = (m_pos m, m, res) :: l'.
Proof.
  intros Sc H. inversion Sc as [off g0 N|off g0 m' g1 res l' g2 H' X Sc']; subst; change (skipn 0 text) with text in *; [congruence|].
  rewrite H in H'. apply RegexFacts.some_inj in H'. subst m'. exists g1, res, l'. auto.
Qed.
Theorem C69_month_day_first : forall e g text t us rs tx x T, sane e -> real_instant t us -> plain_month_day tx x -> next_word T -> to_lower text = tx ++ T -> 1 <= md_day x <= 31 ->
  x_res (execute e middle_endian g text (ptime_of t us)) = Ret rs ->
  exists r rest, rs = r :: rest /\ r_index r = 0 /\ r_text r = tx /\ month_day_said t x r.
Proof.
  intros e g text t us rs tx x T He H P NW Et Hd X. assert (L : low (tx ++ T)) by (rewrite <- Et; apply low_to_lower). pose proof L as L'. apply low_app in L' as [Lx LT].
  destruct (plain_found tx x T P LT NW) as (m & p & S & Hp & Hs & O & G & Ep & Mw & Dw & Rd & Ex & Tm).
  pose proof (execute_scan _ _ _ _ _ _ He (nonempty_all _ in_middle_endian) X) as Sc. cbn [p_pattern middle_endian] in Sc. change (compile middle_endian_pattern) with (compile (p_pattern middle_endian)) in Sc. rewrite middle_endian_compile in Sc.
  destruct Sc as (l & Sc & ->). rewrite Et in Sc. destruct (scan_inv _ _ _ _ _ _ _ _ m Sc S) as (g1 & res & l' & Xr & ->). clear Sc.
  rewrite Hp in *. cbn [p_extract middle_endian] in Xr. unfold pure_extract in Xr. apply (f_equal snd) in Xr. cbn [snd] in Xr.
  rewrite <- Ep in Lx. destruct (month_table _ _ Mw) as [_ Bm].
  destruct (middle_endian_known e g (tx ++ T) m p t us (Z.of_nat 0) (md_month x) (md_day x) H Lx O G Rd Tm Bm Hd) as [K _]. destruct (K _ Xr) as (y & Ym & ->). rewrite Ex in Ym.
  unfold kept. cbn [map snd filter]. rewrite possible_me by lia. cbn [map]. eexists _, _. split; [reflexivity|].
  destruct (me_result_facts p (ptime_of t us) (Z.of_nat 0) (md_month x) (md_day x) y) as (F1 & F2 & _). split; [exact (F2 eq_refl)|]. split; [rewrite <- Ep; exact F1|]. apply copy_said. rewrite <- Ex at 1. apply me_said. rewrite Ex. exact Ym.
Qed.
Print Assumptions C69_month_day_first.
(** ... and it is the only result when no other month is named; the day must exist in the reference year only if no year is written *)
Theorem C69_month_day_found : forall e g text t us tx x T, real_instant t us -> 1401 <= cy (mdate t) <= 9998 -> plain_month_day tx x -> next_word T -> to_lower text = tx ++ T -> ~ names_month T ->
  1 <= md_day x <= 31 -> (year_missing x -> md_day x <= month_len (cy (mdate t)) (md_month x)) ->
  exists r, x_res (execute e middle_endian g text (ptime_of t us)) = Ret [r] /\ r_index r = 0 /\ r_text r = tx /\ month_day_said t x r.
Proof.
  intros e g text t us tx x T H Hy P NW Et Nm Hd D. assert (L : low (tx ++ T)) by (rewrite <- Et; apply low_to_lower). pose proof L as L'. apply low_app in L' as [Lx LT].
  destruct (plain_found tx x T P LT NW) as (m & p & S & Hp & Hs & O & G & Ep & Mw & Dw & Rd & Ex & Tm). rewrite <- Ep in Lx. destruct (month_table _ _ Mw) as [_ Bm].
  destruct (middle_endian_known e g (tx ++ T) m p t us 0 (md_month x) (md_day x) H Lx O G Rd Tm Bm Hd) as [K1 K2].
  destruct K2 as (r & Xr); [exact Hy| |].
  { intros W. apply D. unfold year_missing. pose proof O as (_ & _ & _ & _ & _ & _ & _ & _ & _ & Dy). assert (Ey : md_year x = pa_year p) by (rewrite <- Ex; reflexivity). rewrite Ey. unfold written in W. destruct (pa_year p) as [[yy er]|]; [|exact I].
    pose proof (decimal_bounds yy (proj1 Dy)). destruct er; try exact W. exfalso. destruct (decimal yy <? 100); lia. }
  destruct (K1 _ Xr) as (y & Ym & ->). rewrite Ex in Ym. eexists. split.
  - refine (execute_first e middle_endian g text (ptime_of t us) middle_endian_re m g _ tx T middle_endian_compile min_middle Et S Hp Hs _ (possible_me _ _ _ _ _ _ (proj1 Bm)) (no_month_no_match T LT Nm)).
    cbn [p_extract middle_endian]. unfold pure_extract. rewrite Xr. reflexivity.
  - destruct (me_result_facts p (ptime_of t us) 0 (md_month x) (md_day x) y) as (F1 & F2 & _). split; [exact (F2 eq_refl)|]. split; [rewrite <- Ep; exact F1|]. apply copy_said. rewrite <- Ex at 1. apply me_said. rewrite Ex. exact Ym.
Qed.
Print Assumptions C69_month_day_found.
Example C69_case : let x := MonthDay (Some 1) 2 21 (Some (bs "23", true)) (Some (bs "44", BC)) in
  plain_month_day (bs "on monday, feb. twenty-first to 23rd 44 bc ") x /\ next_word (bs "he left") /\ ~ names_month (bs "he left") /\
  exists r, x_res (execute strict_env middle_endian gwords_init (bs "On Monday, Feb. Twenty-First to 23rd 44 BC he left") noon2024) = Ret [r] /\ certain Year (-44) (r_start r) /\ certain MDay 21 (r_start r) /\ certain MDay 23 (r_endc r) /\ certain WDay 1 (r_start r).
Proof.
  cbv zeta. split; [|split; [|split]].
  - exists (bs "on monday, "), (bs "feb."), (bs " "), (bs "twenty-first"), (bs " "), (bs "to 23rd "), (bs "44 bc "). cbn [md_weekday md_month md_day md_to md_year]. split; [reflexivity|].
    split; [exists (bs "on "), (bs "monday"), (bs ","), (bs " "); split; [reflexivity|]; split; [auto|]; split; [exists "monday"; split; [cbn; tauto|reflexivity]|]; split; [auto|]; split; [repeat constructor|discriminate]|].
    split; [exists "feb"; right; split; [cbn; tauto|right; reflexivity]|].
    split; [apply (pd_twenty (bs " ") "-"%char "first" 1); [right; right; exists [], (bs " "); split; [reflexivity|]; split; [auto|repeat constructor]|discriminate|auto|cbn; tauto]|].
    split; [repeat constructor|]. split; [discriminate|].
    split; [split; [reflexivity|]; exists (bs "to"), (bs " "), (bs "rd"), (bs " "); split; [reflexivity|]; split; [auto|]; split; [repeat constructor|]; split; [repeat constructor|]; split; [cbn; lia|]; split; [unfold ordinal_suffix; tauto|]; split; [repeat constructor|discriminate]|].
    split; [repeat constructor|]. exists [], []. split; [auto|]. split; [constructor|]. split; [right; split; [discriminate|cbn; lia]|]. exists (bs " "), (bs " "). split; [reflexivity|]. split; [repeat constructor|]. split; [repeat constructor|discriminate].
  - left. exists "h"%char, (bs "e left"). split; [reflexivity|]. split; [reflexivity|]. split; [reflexivity|]. intros w I (v & Q). cbn in I. decompose [or] I; subst; try contradiction; discriminate Q.
  - intros (w & mo & (s & [[I ->]|[I [-> | ->]]]) & Oc); cbn in I; decompose [or] I; try contradiction; match goal with E : (_, _) = (_, _) |- _ => injection E as <- <- end; revert Oc; apply not_occurs; vm_compute; reflexivity.
  - eexists. split; [vm_compute; reflexivity|]. repeat split; vm_compute; reflexivity.
Qed.

(** C36 is false of a text that ends with the year (the year is not read), and of one in which a comma follows the day (no date is found). *)
Theorem C36_written_year_refuted :
  (exists r, x_res (execute strict_env middle_endian gwords_init (bs "jan 12 2012") noon2024) = Ret [r] /\ certain Year 2024 (r_start r) /\ r_text r = bs "jan 12 ") /\
  x_res (execute strict_env middle_endian gwords_init (bs "jan 12, 2012 was") noon2024) = Ret [].
Proof. split; [|vm_compute; reflexivity]. eexists. split; [vm_compute; reflexivity|]. split; [split; vm_compute; reflexivity|vm_compute; reflexivity]. Qed.
Print Assumptions C36_written_year_refuted.
(** A month name, a day, a year of four digits (1000 to 9999 here) and a word yield that very date: see also C69.
    (Missing: the year as the end of the text, a comma right after the day, and years written 0000 to 0099.) *)
Theorem C36_written_year_partial : forall e g text t us mw mo sep dd suf sp yy T, real_instant t us -> 1401 <= cy (mdate t) <= 9998 ->
  month_word mw mo -> plain_sep sep -> digits dd -> (1 <= List.length dd <= 2)%nat -> ordinal_suffix suf -> 1 <= decimal dd <= 31 -> spaced sp -> sp <> [] ->
  digits yy -> List.length yy = 4%nat -> 100 <= decimal yy -> next_word T -> ~ names_month T -> to_lower text = mw ++ sep ++ dd ++ suf ++ sp ++ yy ++ bs " " ++ T ->
  exists r, x_res (execute e middle_endian g text (ptime_of t us)) = Ret [r] /\ r_text r = mw ++ sep ++ dd ++ suf ++ sp ++ yy ++ bs " " /\ has_end r = false /\
    certain Month mo (r_start r) /\ certain MDay (decimal dd) (r_start r) /\ certain Year (decimal yy) (r_start r).
Proof.
  intros e g text t us mw mo sep dd suf sp yy T H Hy Mw Ps Dd Ld Sf Hd Sp Ns Dy Ly By NW Nm Et.
  set (x := MonthDay None mo (decimal dd) None (Some (yy, NoEra))).
  destruct (C69_month_day_found e g text t us (mw ++ sep ++ dd ++ suf ++ sp ++ yy ++ bs " ") x T H Hy) as (r & X & _ & Er & (y & Ym & (D1 & D2 & D3 & _) & _ & En)).
  - exists [], mw, sep, (dd ++ suf), sp, [], (yy ++ bs " "). cbn [md_weekday md_month md_day md_to md_year x]. split; [rewrite <- !app_assoc; reflexivity|]. split; [reflexivity|]. split; [exact Mw|]. split; [apply pd_digits; assumption|].
    split; [exact Sp|]. split; [exact Ns|]. split; [reflexivity|]. split; [exact Dy|]. exists [], []. split; [auto|]. split; [constructor|]. split; [exact Ly|reflexivity].
  - exact NW.
  - rewrite Et, <- !app_assoc. reflexivity.
  - exact Nm.
  - exact Hd.
  - unfold year_missing, x. cbn [md_year year_in_era]. lia.
  - exists r. split; [exact X|]. split; [exact Er|]. split; [exact En|]. split; [exact D1|]. split; [exact D2|]. unfold year_meant, x in Ym. cbn [md_year year_in_era] in Ym. destruct Ym as (Y1 & _). rewrite <- (Y1 (fun _ => By)) by lia. exact D3.
Qed.
Print Assumptions C36_written_year_partial.
Example C36_case : exists r, x_res (execute strict_env middle_endian gwords_init (bs "Jan. 12th 2012 was cold") noon2024) = Ret [r] /\ certain Year 2012 (r_start r) /\ certain MDay 12 (r_start r) /\ r_text r = bs "jan. 12th 2012 ".
Proof. eexists. split; [vm_compute; reflexivity|]. repeat split; vm_compute; reflexivity. Qed.
