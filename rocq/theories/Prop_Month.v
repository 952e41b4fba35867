(** * Month names (C33, C34) *)
From Verif Require Import Base Regex RegexParse Calendar Components Utils Execute Spec View ParserSpec PhraseSpec CalendarCycle CalendarFacts RegexFacts ResultFacts
  ExecuteFacts ParserRe MatchFacts ShapeFacts LocateFacts HistoryFacts ParserFacts CasualFacts NumberFacts Symbolic ISOFacts HolidayFacts MonthFacts Main P_MonthName Prop_Execute Prop_Casual.
From Coq Require Import ZifyBool ZifyNat ZifyN.
Open Scope string_scope.
Open Scope list_scope.
Open Scope Z_scope.

Lemma in_month_name : In month_name all_parsers. Proof. cbn; tauto. Qed.
Lemma backslash_lower text : ~ In backslash text -> ~ In backslash (to_lower text).
Proof.
  intros Nb Il. apply Nb. unfold to_lower in Il. apply in_map_iff in Il as (c & Ec & Ic).
  assert (Hc : implb (Ascii.eqb (lower c) backslash) (Ascii.eqb c backslash) = true) by (revert c Ec Ic; intros c _ _; revert c; apply forall_ascii; vm_compute; reflexivity).
  rewrite Ec, Ascii.eqb_refl in Hc. cbn [implb] in Hc. apply Ascii.eqb_eq in Hc. subst c. exact Ic.
Qed.
Lemma skip_in {A} n (l : list A) c : In c (skipn n l) -> In c l.
Proof. intros H. rewrite <- (firstn_skipn n l). apply in_or_app. right. exact H. Qed.
Lemma skip_occurs n w l : occurs w (skipn n l) -> occurs w l.
Proof. intros (a & b & E). exists (firstn n l ++ a), b. rewrite <- app_assoc, <- E, firstn_skipn. reflexivity. Qed.

(** C33 is false in corner cases: "may. 2012" has month 0, "mar 0050" means 2050, "jun" is not recognised. *)
Theorem C33_month_refuted :
  (exists r, x_res (execute strict_env month_name gwords_init (bs "may. 2012") noon2024) = Ret [r] /\ certain Month 0 (r_start r)) /\
  (exists r, x_res (execute strict_env month_name gwords_init (bs "mar 0050") noon2024) = Ret [r] /\ certain Year 2050 (r_start r)) /\
  x_res (execute strict_env month_name gwords_init (bs "jun") noon2024) = Ret [].
Proof. split; [|split]; [| |vm_compute; reflexivity]; eexists; (split; [vm_compute; reflexivity|]); split; vm_compute; reflexivity. Qed.
Print Assumptions C33_month_refuted.

(** Every result of every text that contains neither a backslash nor "may.": its text is a month name, blanks and possibly a year; the month
    is certain, the day is an implied 1; without a year the year is the implied nearest one, with a year that year is certain.
    (Missing: years 0000..0099 without era, which the program moves to 2000..2099; 1 BC and 542 BE, which it takes for "no year"; "may."; "jun".) *)
Theorem C33_every_month_partial : forall e g text t us rs res, sane e -> real_instant t us -> ~ In backslash text -> ~ occurs (bs "may.") (to_lower text) ->
  x_res (execute e month_name g text (ptime_of t us)) = Ret rs -> In res rs ->
  has_end res = false /\ exists w m sp tail, month_word w m /\ 1 <= m <= 12 /\ blanks sp /\ r_text res = w ++ sp ++ tail /\
    ((tail = [] /\ month_said t m None (r_start res)) \/
     (exists yy er sp', year_tail tail yy (sp' ++ era_word er) /\ blanks sp' /\ digits yy /\ List.length yy = 4%nat /\ month_said t m (Some (yy, er)) (r_start res))).
Proof.
  intros e g text t us rs res He H Nb Nm X I.
  destruct (results_from_pure e month_name_pattern month_name_extract g text _ rs res month_name_re He in_month_name month_name_compile X I) as (off & m & r0 & S & L & Xr & P & ->).
  refine (month_name_extracted e g _ m t us (Z.of_nat (off + m_pos m)) r0 H L S _ _ Xr); [|intros O; apply Nm; eapply skip_occurs; exact O].
  intros Ib. apply (backslash_lower _ Nb). eapply skip_in; exact Ib.
Qed.
Print Assumptions C33_every_month_partial.

(** the words that are recognised *)
Definition recognised_months : list (string * Z) :=
  Eval vm_compute in month_names ++ filter (fun x => negb (String.eqb (fst x) "jun")) (month_short_names ++ map (fun x => (fst x ++ ".", snd x)%string) month_short_names).
Definition known_months : list (string * Z) := Eval vm_compute in filter (fun x => negb (String.eqb (fst x) "jun.")) recognised_months.
Definition month_alone_ok (x : string * Z) : bool :=
  match search true month_name_re (bs (fst x)) with Some m => (m_pos m =? 0)%nat && beq (m_str m) (bs (fst x)) && beq (grp m 1) [] && beq (grp m 2) (bs (fst x)) && beq (grp m 3) [] | None => false end.
Lemma months_alone : forallb month_alone_ok known_months = true.
Proof. vm_compute. reflexivity. Qed.
Lemma month_digit : class_alike true month_name_re is_digit "5" = true.
Proof. vm_compute. reflexivity. Qed.
Definition year_seps : list string := [" "; ", "; "-"; ","; ""].
Lemma months_years x sep yy : In x known_months -> In sep year_seps -> digits yy -> List.length yy = 4%nat ->
  exists m, search true month_name_re (bs (fst x) ++ bs sep ++ yy) = Some m /\ m_pos m = 0%nat /\ m_str m = bs (fst x) ++ bs sep ++ yy /\
    grp m 1 = [] /\ grp m 2 = bs (fst x) /\ grp m 3 = yy /\ grp m 4 = [].
Proof.
  intros Ix Is Dy Ly. set (l := lit (bs (fst x) ++ bs sep) ++ as5 yy).
  assert (El : acts l = bs (fst x) ++ bs sep ++ yy) by (unfold l; rewrite acts_app, acts_lit, acts_as5, <- app_assoc; reflexivity).
  rewrite <- El. rewrite (symbolic_search true month_name_re l) by (apply app_forall; [apply alike_lit|apply alike_as5; [exact month_digit|exact Dy]]).
  subst l. clear El. apply len4 in Ly as (a & b & c & d & ->). clear Dy.
  cbn [In known_months year_seps] in Ix, Is. decompose [or] Ix; try contradiction; subst x; decompose [or] Is; try contradiction; subst sep; clear;
    (eexists; split; [vm_compute; reflexivity|]; vm_compute; repeat split; reflexivity).
Qed.

Lemma known_value x m : In (x, m) known_months -> tbl_get (bs x) MONTH_CONSTANTS = m /\ 1 <= m <= 12 /\ bs x <> [].
Proof.
  intros I. cbn [In known_months] in I. decompose [or] I; try contradiction; match goal with E : (_, _) = (_, _) |- _ => injection E as <- <- end; (split; [vm_compute; reflexivity|split; [lia|discriminate]]).
Qed.
Lemma min_month : (1 <= min_len month_name_re)%nat.
Proof. apply Nat.leb_le. vm_compute. reflexivity. Qed.
Lemma possible_month r m : getMonth (r_start r) = m -> 1 <= m -> hasPossibleDates r = true.
Proof. intros M H. unfold hasPossibleDates. rewrite M. replace (m =? 0) with false by lia. rewrite !andb_false_r. reflexivity. Qed.

(** A month name alone (any but "jun", "jun." and "may."), for every reference of the years 1401 to 9998. *)
Theorem C33_month_alone_partial : forall e g text t us x m, real_instant t us -> 1401 <= cy (mdate t) <= 9998 ->
  In (x, m) known_months -> to_lower text = bs x ->
  exists res, x_res (execute e month_name g text (ptime_of t us)) = Ret [res] /\ r_text res = bs x /\ r_index res = 0 /\ has_end res = false /\ month_said t m None (r_start res).
Proof.
  intros e g text t us x m H Hy I E. pose proof (known_value _ _ I) as (V & Hm & _).
  pose proof (proj1 (forallb_forall _ _) months_alone _ I) as A. unfold month_alone_ok in A. cbn [fst] in A.
  destruct (search true month_name_re (bs x)) as [mm|] eqn:S; [|discriminate]. apply andb_prop in A as [A G3]. apply andb_prop in A as [A G2]. apply andb_prop in A as [A G1]. apply andb_prop in A as [P Es].
  assert (Beq : forall a b, beq a b = true -> a = b).
  { induction a as [|c a IH]; intros [|d b]; cbn; try discriminate; auto. intros Q. apply andb_prop in Q as [Q1 Q2]. apply Ascii.eqb_eq in Q1. subst. f_equal. auto. }
  apply Beq in G1, G2, G3, Es. apply Nat.eqb_eq in P.
  destruct (nearest_year_total (mdate t) m 1 (proj1 (proj1 H)) Hy) as [y Ny]; [split; cbn [cy cm cd]; [lia|]; pose proof (month_len_bounds (cy (mdate t)) m Hm); lia|].
  destruct (nearest_year_value _ _ _ _ (proj1 (proj1 H)) Ny) as (_ & _ & _ & N). specialize (N ltac:(lia)).
  set (res := setTag TMonthName (on_start (fun p => implyComponent "year" y (setMonth m (implyComponent "mday" 1 p))) (res_new (ptime_of t us) 0 (bs x)))).
  assert (X : month_name_extract e g (to_lower text) mm (ptime_of t us) 0 = Ret res).
  { unfold month_name_extract. rewrite G1. cbn [List.length]. change (grp mm 0) with (m_str mm). rewrite substr_from_ok by lia. cbn [bind skipn]. rewrite G2, V, G3, Es. cbn [is_nil].
    rewrite pt_date_of by exact H. cbn [bind]. rewrite Ny. reflexivity. }
  exists (res_copy res). split; [|split; [reflexivity|split; [reflexivity|split; [reflexivity|]]]].
  - rewrite (execute_whole e month_name g text (ptime_of t us) month_name_re mm g res month_name_compile min_month); auto.
    + rewrite E. exact S.
    + rewrite E. exact Es.
    + cbn [p_extract month_name]. unfold pure_extract. rewrite X. reflexivity.
    + apply (possible_month res m); [reflexivity|lia].
  - subst res. clear - N. split; [comps|]. split; [comps|]. split; [comps|]. exists y. split; [exact N|comps].
Qed.
Print Assumptions C33_month_alone_partial.

(** A month name and a four-digit year, for every reference; the years 0000..0099 excepted. *)
Theorem C33_month_year_partial : forall e g text t us x m sep yy, real_instant t us ->
  In (x, m) known_months -> In sep year_seps -> digits yy -> List.length yy = 4%nat -> 100 <= decimal yy -> to_lower text = bs x ++ bs sep ++ yy ->
  exists res, x_res (execute e month_name g text (ptime_of t us)) = Ret [res] /\ r_text res = to_lower text /\ r_index res = 0 /\ has_end res = false /\
    certain Month m (r_start res) /\ certain Year (decimal yy) (r_start res) /\ implied_is MDay 1 (r_start res) /\ untouched [WDay; Hour; Min; Sec; TzOffset] (r_start res).
Proof.
  intros e g text t us x m sep yy H I Is Dy Ly By E. pose proof (known_value _ _ I) as (V & Hm & _).
  destruct (months_years (x, m) sep yy I Is Dy Ly) as (mm & S & P & Es & G1 & G2 & G3 & G4). cbn [fst] in *.
  set (res := setTag TMonthName (on_start (fun p => setYear (decimal yy) (setMonth m (implyComponent "mday" 1 p))) (res_new (ptime_of t us) 0 (m_str mm)))).
  assert (X : month_name_extract e g (to_lower text) mm (ptime_of t us) 0 = Ret res).
  { unfold month_name_extract. rewrite G1. cbn [List.length]. change (grp mm 0) with (m_str mm). rewrite substr_from_ok by lia. cbn [bind skipn]. rewrite G2, V, G3, G4.
    replace (is_nil yy) with false by (destruct yy; [discriminate|reflexivity]). rewrite stoi_short by (auto; lia). unfold era_year. cbn [is_nil].
    replace (decimal yy <? 100) with false by lia. replace (decimal yy =? -1) with false by lia. reflexivity. }
  exists (res_copy res). split; [|split; [|split; [reflexivity|split; [reflexivity|]]]].
  - rewrite (execute_whole e month_name g text (ptime_of t us) month_name_re mm g res month_name_compile min_month); auto.
    + rewrite E. exact S.
    + rewrite E. exact Es.
    + cbn [p_extract month_name]. unfold pure_extract. rewrite X. reflexivity.
    + apply (possible_month res m); [reflexivity|lia].
  - rewrite E. cbn [res_copy r_text]. subst res. rewrite Es. reflexivity.
  - subst res. clear. split; [comps|]. split; [comps|]. split; comps.
Qed.
Print Assumptions C33_month_year_partial.

Example C33_case : let t := Moment (Cal 2024 1 10) 12 0 0 in
  real_instant t 0 /\ nearest_year_to (mdate t) 12 1 2023 /\ In ("december", 12) known_months /\
  (exists r, x_res (execute strict_env month_name gwords_init (bs "December") (ptime_of t 0)) = Ret [r] /\ toDate r = Ret (bs "2023-Dec-01 00:00:00")) /\
  (exists r, x_res (execute strict_env month_name gwords_init (bs "Sept. 2555 BE") (ptime_of t 0)) = Ret [r] /\ toDate r = Ret (bs "2012-Sep-01 00:00:00")).
Proof.
  cbv zeta. split; [inst|]. split; [|split; [cbn; tauto|]].
  - split; [cbn; lia|]. split; [|intros _; vm_compute; reflexivity].
    intros y' Hy'. cbn [cy mdate] in Hy'. assert (C : y' = 2023 \/ y' = 2024 \/ y' = 2025) by lia. destruct C as [-> | [-> | ->]]; vm_compute; discriminate.
  - split; eexists; (split; [vm_compute; reflexivity|]); vm_compute; reflexivity.
Qed.

(** C34 is false: "may." throws, and so does any month name when the reference is in the year 1400 or 9999. *)
Theorem C34_month_returns_refuted :
  x_res (execute strict_env month_name gwords_init (bs "may.") noon2024) = Throw OutOfRange /\
  forall e g t us, real_instant t us -> cy (mdate t) = 1400 \/ cy (mdate t) = 9999 -> x_res (execute e month_name g (bs "march") (ptime_of t us)) = Throw OutOfRange.
Proof.
  split; [vm_compute; reflexivity|]. intros e g t us H Hy. unfold execute. cbn [p_pattern month_name].
  change (compile month_name_pattern) with (compile (p_pattern month_name)). rewrite month_name_compile.
  change (to_lower (bs "march")) with (bs "march"). change (S (List.length (bs "march"))) with 6%nat. cbn [exec_loop].
  destruct (search true month_name_re (bs "march")) as [mm|] eqn:S; [|vm_compute in S; discriminate].
  assert (G : grp mm 1 = [] /\ grp mm 2 = bs "march" /\ grp mm 3 = [] /\ m_pos mm = 0%nat) by (vm_compute in S; injection S as <-; auto). destruct G as (G1 & G2 & G3 & G0).
  cbn [p_extract month_name]. unfold pure_extract, month_name_extract. rewrite G1, G2, G3. rewrite substr_from_ok by (cbn; lia). cbn [bind is_nil].
  change (tbl_get (bs "march") MONTH_CONSTANTS) with 3. rewrite pt_date_of by exact H. cbn [bind]. unfold nearest_year. pose proof (proj1 (proj1 H)) as R. rewrite d_year_real by exact R. cbn [bind].
  assert (Rr : real_date (Cal (cy (mdate t)) 3 1)) by (split; [split; cbn [cy cm cd]; [lia|pose proof (month_len_bounds (cy (mdate t)) 3 ltac:(lia)); lia]|unfold in_range_year; cbn [cy]; lia]).
  pose proof (mk_date_real _ Rr) as Ed. cbn [cy cm cd] in Ed. rewrite Ed. cbn [bind]. unfold add_years.
  destruct Hy as [Hy|Hy].
  - rewrite (add_months_out _ (12 * -1) Rr) by (try lia; unfold in_range_year; rewrite year_of_shift by (cbn; lia); cbn [cy]; lia). reflexivity.
  - rewrite (add_months_real _ (12 * -1) Rr) by (try lia; unfold in_range_year; rewrite year_of_shift by (cbn; lia); cbn [cy]; lia). cbn [bind].
    rewrite (add_months_out _ (12 * 1) Rr) by (try lia; unfold in_range_year; rewrite year_of_shift by (cbn; lia); cbn [cy]; lia). reflexivity.
Qed.
Print Assumptions C34_month_returns_refuted.

(** On every text with neither a backslash nor "may." and every reference of the years 1401 to 9998 it returns.
    (Missing: those texts, and the first and last supported year.) *)
Theorem C34_month_returns_partial : forall e g text t us, real_instant t us -> 1401 <= cy (mdate t) <= 9998 -> ~ In backslash text -> ~ occurs (bs "may.") (to_lower text) ->
  exists rs, x_res (execute e month_name g text (ptime_of t us)) = Ret rs.
Proof.
  intros e g text t us H Hy Nb Nm. apply (execute_total_pure e month_name_pattern month_name_extract month_name_re); [exact min_month|exact month_name_compile|].
  intros off m idx S L. destruct (month_name_returns e g _ m t us idx H Hy L S) as (r & X & P).
  - intros Ib. apply (backslash_lower _ Nb). eapply skip_in; exact Ib.
  - intros O. apply Nm. eapply skip_occurs; exact O.
  - exists r. split; [exact X|]. left. exact P.
Qed.
Print Assumptions C34_month_returns_partial.
Example C34_case : exists rs, x_res (execute strict_env month_name gwords_init (bs "from march to may 2012, or december!") noon2024) = Ret rs /\ List.length rs = 3%nat.
Proof. eexists. split; [vm_compute; reflexivity|]. vm_compute; reflexivity. Qed.
