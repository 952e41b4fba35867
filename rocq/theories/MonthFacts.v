(** * MonthFacts: month names and the nearest year *)
From Verif Require Import Base Regex RegexParse Calendar Components Utils Execute Spec View ParserSpec PhraseSpec CalendarCycle CalendarFacts RegexFacts ResultFacts Template
  ExecuteFacts ParserRe MatchFacts ShapeFacts HistoryFacts ParserFacts CasualFacts NumberFacts DeadlineFacts HolidayFacts Symbolic ISOFacts P_MonthName P_MiddleEndian.
From Coq Require Import ZifyBool ZifyNat ZifyN.
Open Scope string_scope.
Open Scope list_scope.
Open Scope Z_scope.

(** ** the nearest year *)
Lemma month_len_same y y' m : m <> 2 -> month_len y m = month_len y' m.
Proof.
  intros H. unfold month_len, month_lengths. destruct (Z.to_nat (m - 1)) as [|[|n]] eqn:E; [reflexivity|lia|reflexivity].
Qed.
Lemma shift_year y m d k : valid (Cal y m d) -> m <> 2 \/ d <= 27 -> shift_months (Cal y m d) (12 * k) = Cal (y + k) m d.
Proof.
  intros [V1 V2] S. cbn [cy cm cd] in *. symmetry. apply months_after_fun. split; [cbn [cy cm cd]; lia|]. cbn [cy cm cd]. split; [lia|].
  destruct (Z.eq_dec m 2) as [->|N].
  - destruct S as [S|S]; [congruence|]. pose proof (month_len_bounds y 2 ltac:(lia)). pose proof (month_len_bounds (y + k) 2 ltac:(lia)).
    destruct (d =? month_len y 2) eqn:E; lia.
  - rewrite (month_len_same (y + k) y m N). destruct (d =? month_len y m) eqn:E; lia.
Qed.
Ltac Zify.zify_post_hook ::= Z.div_mod_to_equations.
Lemma year_of_shift c k : 1 <= cm c <= 12 -> cy (shift_months c (12 * k)) = cy c + k.
Proof. intros H. unfold shift_months. cbn [cy]. lia. Qed.
Lemma rd_years c c' : valid c -> valid c' -> cy c < cy c' -> rd c < rd c'.
Proof. intros V V' H. pose proof (rd_le_year c V). pose proof (rd_le_year c' V'). pose proof (dby_le (cy c + 1) (cy c') ltac:(lia)). lia. Qed.

Lemma nearest_year_value c m d y : real_date c -> nearest_year (dn_of c) m d = Ret y ->
  real_date (Cal (cy c) m d) /\ 1401 <= cy c <= 9998 /\ cy c - 1 <= y <= cy c + 1 /\ (m <> 2 \/ d <= 27 -> nearest_year_to c m d y).
Proof.
  intros R H. unfold nearest_year in H. rewrite d_year_real in H by exact R. cbn [bind] in H.
  apply bind_ret in H as (dr & E1 & H). apply mk_date_inv in E1 as [Rr ->]. unfold add_years in H.
  apply bind_ret in H as (pv & E2 & H). destruct (add_months_inv _ _ _ Rr E2) as (_ & cp & Rp & -> & Mp). apply months_after_fun in Mp.
  apply bind_ret in H as (nx & E3 & H). destruct (add_months_inv _ _ _ Rr E3) as (_ & cn & Rn & -> & Mn). apply months_after_fun in Mn.
  change (12 * -1) with (12 * (-1)) in *. change (12 * 1) with (12 * (1)) in *.
  assert (Yp : cy cp = cy c + -1) by (rewrite Mp; apply (year_of_shift (Cal (cy c) m d)); apply Rr).
  assert (Yn : cy cn = cy c + 1) by (rewrite Mn; apply (year_of_shift (Cal (cy c) m d)); apply Rr).
  split; [exact Rr|]. split; [destruct Rp as [_ Rp], Rn as [_ Rn]; unfold in_range_year in *; lia|].
  assert (O1 : rd cp < rd (Cal (cy c) m d)) by (apply rd_years; [apply Rp|apply Rr|cbn [cy]; lia]).
  assert (O2 : rd (Cal (cy c) m d) < rd cn) by (apply rd_years; [apply Rr|apply Rn|cbn [cy]; lia]).
  assert (Ds : m <> 2 \/ d <= 27 -> distance c m d (cy cp) = Z.abs (dn_of cp - dn_of c) /\ distance c m d (cy c) = Z.abs (dn_of (Cal (cy c) m d) - dn_of c) /\
     distance c m d (cy cn) = Z.abs (dn_of cn - dn_of c)).
  { intros Sm. rewrite shift_year in Mp, Mn by (first [apply Rr|exact Sm]). subst cp cn. unfold distance, dn_of. cbn [cy]. repeat split; f_equal; lia. }
  destruct (Z.abs (dn_of cn - dn_of c) <? Z.abs (dn_of (Cal (cy c) m d) - dn_of c)) eqn:C1;
    [|destruct (Z.abs (dn_of cp - dn_of c) <? Z.abs (dn_of (Cal (cy c) m d) - dn_of c)) eqn:C2];
    (rewrite d_year_real in H by assumption; injection H as <-; cbn [cy]; (split; [lia|]); intros Sm; destruct (Ds Sm) as (D1 & D2 & D3); split; [lia|split]);
    unfold dn_of in *.
  all: try (intros y' Hy'; assert (Cs : y' = cy cp \/ y' = cy c \/ y' = cy cn) by lia; destruct Cs as [-> | [-> | ->]]; rewrite ?D1, ?D2, ?D3; lia).
  all: intros Hne; rewrite ?D1, ?D2, ?D3; lia.
Qed.
Lemma nearest_year_total c m d : real_date c -> 1401 <= cy c <= 9998 -> valid (Cal (cy c) m d) -> exists y, nearest_year (dn_of c) m d = Ret y.
Proof.
  intros R Hy V. unfold nearest_year. rewrite d_year_real by exact R. cbn [bind].
  assert (Rr : real_date (Cal (cy c) m d)) by (split; [exact V|unfold in_range_year; cbn [cy]; lia]).
  pose proof (mk_date_real _ Rr) as E. cbn [cy cm cd] in E. rewrite E. cbn [bind]. clear E. unfold add_years.
  assert (Y1 : in_range_year (shift_months (Cal (cy c) m d) (12 * -1))) by (unfold in_range_year; rewrite year_of_shift by apply V; cbn [cy]; lia).
  assert (Y2 : in_range_year (shift_months (Cal (cy c) m d) (12 * 1))) by (unfold in_range_year; rewrite year_of_shift by apply V; cbn [cy]; lia).
  rewrite (add_months_real _ (12 * -1) Rr ltac:(lia) Y1), (add_months_real _ (12 * 1) Rr ltac:(lia) Y2). cbn [bind].
  destruct (_ <? _); [|destruct (_ <? _)]; (rewrite d_year_real; [eauto|]); try exact Rr; (split; [apply shift_months_valid, V|assumption]).
Qed.

(** ** the month-name match *)
Lemma sep_words w : low w -> lang true mn_sep w -> w = bs "," \/ w = bs "-".
Proof.
  intros Lw (c & -> & Hc).
  assert (Sg : implb (set_ok true false [CChar ","; CChar "-"] c) (Ascii.eqb c "," || Ascii.eqb c "-") = true). { revert c Hc Lw. intros c _ _. revert c. apply forall_ascii. vm_compute. reflexivity. }
  change (set_ok true false [CChar ","; CChar "-"] c = true) in Hc. rewrite Hc in Sg. cbn [implb] in Sg. apply Bool.orb_true_iff in Sg as [E|E]; apply Ascii.eqb_eq in E; subst c; auto.
Qed.
Lemma D4_digits w : lang true D4 w -> digits w /\ List.length w = 4%nat.
Proof.
  intros L. pose proof (only_ok true is_digit D4 w eq_refl L) as D. split; [exact D|].
  pose proof (max_len_ok _ _ _ 4%nat L eq_refl). pose proof (min_len_ok _ _ _ L) as M. change (min_len D4) with 4%nat in M. lia.
Qed.
Lemma month_name_match t m : low t -> search true month_name_re t = Some m ->
  exists pre post w sp tail, t = pre ++ m_str m ++ post /\ m_pos m = List.length pre /\ m_str m = grp m 1 ++ w ++ sp ++ tail /\ grp m 2 = w /\ lang true mn_months w /\ blanks sp /\
    ((tail = [] /\ grp m 3 = []) \/
     (exists yy er, year_tail tail yy er /\ grp m 3 = yy /\ grp m 4 = er /\ digits yy /\ List.length yy = 4%nat /\ (er = [] \/ lang true mn_era er))).
Proof.
  intros Lt H. shape H. assert (Lm : low (m_str m)) by (match goal with E : t = _ ++ m_str m ++ _ |- _ => rewrite E in Lt end; eapply low_part; exact Lt). unfold grp. rewrite C. clear C. unfold month_name_re, mn_year in M. 
  destruct M as (s1 & M1 & M). mt_crack M1. destruct M as (s2 & M2 & M). mt_crack M2. destruct M as (s3 & M3 & M). mt_crack M3. destruct M as (s4 & M4 & M).
  destruct M4 as [->|M4]; [mt_crack M; shape_end Es; rewrite <- Es in *; clear Es|mt_crack M4; mt_crack M; shape_end Es; rewrite <- Es in *; clear Es].
  all: repeat match goal with L : lang _ SPs _ |- _ => apply SPs_blanks in L end.
  - eexists pre, _, _, _, []. split; [reflexivity|]. cbn. rewrite app_nil_r. repeat split; auto.
  - match goal with L3 : lang _ D4 ?yy |- _ => apply D4_digits in L3 as [? ?]; eexists pre, _, w0, w1, (w2 ++ yy); split; [reflexivity|]; cbn; do 5 (split; [solve [auto]|]);
      right; exists yy, []; split; [exists [], w2; rewrite app_nil_r; auto|auto 6] end.
  - match goal with L3 : lang _ D4 ?yy, L4 : lang _ mn_era ?er |- _ => apply D4_digits in L3 as [? ?]; eexists pre, _, w0, w1, (w2 ++ yy ++ er); split; [reflexivity|]; cbn; do 5 (split; [solve [auto]|]);
      right; exists yy, er; split; [exists [], w2; auto|auto 7] end.
  - match goal with L2 : lang _ mn_sep ?sep, L3 : lang _ D4 ?yy, Ls : blanks ?sp |- context [?sep ++ ?sp ++ ?yy] => apply D4_digits in L3 as [? ?]; eexists pre, _, w0, w1, (sep ++ sp ++ yy); split; [reflexivity|]; cbn; do 5 (split; [solve [auto]|]);
      right; exists yy, []; split; [exists sep, sp; rewrite app_nil_r; split; [reflexivity|]; split; [|assumption];
         right; apply sep_words; [repeat (apply low_app in Lm as [? Lm]; try assumption)|exact L2]|auto 6] end.
  - match goal with L2 : lang _ mn_sep ?sep, L3 : lang _ D4 ?yy, Ls : blanks ?sp, L4 : lang _ mn_era ?er |- context [?sep ++ ?sp ++ ?yy ++ ?er] => apply D4_digits in L3 as [? ?]; eexists pre, _, w0, w1, (sep ++ sp ++ yy ++ er); split; [reflexivity|]; cbn; do 5 (split; [solve [auto]|]);
      right; exists yy, er; split; [exists sep, sp; split; [reflexivity|]; split; [|assumption];
         right; apply sep_words; [repeat (apply low_app in Lm as [? Lm]; try assumption)|exact L2]|auto 7] end.
Qed.
(** the words: a name of the month, or one of the oddities of the pattern *)
Lemma mn_words w : low w -> lang true mn_months w -> In backslash w \/ w = bs "may." \/ exists m, month_word w m /\ tbl_get w MONTH_CONSTANTS = m /\ 1 <= m <= 12.
Proof.
  intros Lw L. word_cases L; first [left; cbn; tauto|right; left; reflexivity|right; right; eexists; split; [|split; [vm_compute; reflexivity|lia]]].
  all: match goal with |- month_word ?w ?m => idtac end.
  all: try (eexists; left; split; [cbn; tauto|reflexivity]).
  all: try (eexists; right; split; [cbn; tauto|left; reflexivity]).
  all: try (eexists; right; split; [cbn; tauto|right; reflexivity]).
  all: first [exists "sept"; right; split; [cbn; tauto|left; reflexivity]|exists "sept"; right; split; [cbn; tauto|right; reflexivity]].
Qed.
Lemma mn_eras w : low w -> lang true mn_era w -> exists e sp, e <> NoEra /\ w = sp ++ era_word e /\ blanks sp.
Proof.
  intros Lw L. word_cases L; [exists BE|exists AD, []|exists BC, []]; try (split; [discriminate|]; split; [reflexivity|constructor]).
  match goal with R : Forall _ ?x |- _ => exists x; split; [discriminate|]; split; [reflexivity|apply space_run; exact R] end.
Qed.
Lemma contains_era x y sp w : is_space x = false -> blanks sp -> contains (x :: y) (sp ++ w) = contains (x :: y) w.
Proof. intros. apply contains_blanks; assumption. Qed.
Lemma era_year_ok y e sp : blanks sp -> low (sp ++ era_word e) -> e <> NoEra -> era_year y (sp ++ era_word e) = year_in_era e y.
Proof.
  intros B L N. unfold era_year. rewrite low_lower by exact L.
  replace (is_nil (sp ++ era_word e)) with false by (destruct sp, e; try reflexivity; congruence).
  change (bs "be") with ("b"%char :: bs "e"). change (bs "bc") with ("b"%char :: bs "c"). rewrite !contains_era by (first [reflexivity|assumption]). destruct e; [congruence|reflexivity..].
Qed.

Lemma month_implied t us m idx tx r : real_instant t us -> 1 <= m <= 12 ->
  (refd <- pt_date (ptime_of t us) ;; y <- nearest_year refd m 1 ;;
   Ret (setTag TMonthName (on_start (fun p => implyComponent "year" y (setMonth m (implyComponent "mday" 1 p))) (res_new (ptime_of t us) idx tx)))) = Ret r ->
  month_said t m None (r_start r) /\ has_end r = false /\ r_text r = tx.
Proof.
  intros H Hm X. rewrite pt_date_of in X by exact H. cbn [bind] in X. apply bind_ret in X as (y & Ey & X). injection X as <-.
  destruct (nearest_year_value _ _ _ _ (proj1 (proj1 H)) Ey) as (_ & _ & _ & N). specialize (N ltac:(lia)). split; [|split; reflexivity].
  split; [comps|]. split; [comps|]. split; [comps|]. exists y. split; [exact N|comps].
Qed.
Lemma month_name_extracted e g tx m t us idx r : real_instant t us -> low tx -> search true month_name_re tx = Some m -> ~ In backslash tx -> ~ occurs (bs "may.") tx ->
  month_name_extract e g tx m (ptime_of t us) idx = Ret r ->
  has_end r = false /\ exists w mo sp tail, month_word w mo /\ 1 <= mo <= 12 /\ blanks sp /\ r_text r = w ++ sp ++ tail /\
    ((tail = [] /\ month_said t mo None (r_start r)) \/
     (exists yy er sp', year_tail tail yy (sp' ++ era_word er) /\ blanks sp' /\ digits yy /\ List.length yy = 4%nat /\ month_said t mo (Some (yy, er)) (r_start r))).
Proof.
  intros H L S Nb Nm X. destruct (month_name_match _ _ L S) as (pre & post & w & sp & tail & E & _ & Em & G2 & Lw & B & T).
  assert (Lm : low (m_str m)) by (rewrite E in L; eapply low_part; exact L). rewrite Em in Lm. apply low_app in Lm as [_ Lm]. apply low_app in Lm as [Lw' Lm]. apply low_app in Lm as [_ Ltail].
  assert (Iw : forall c, In c w -> In c tx).
  { intros c Ic. rewrite E, Em. apply in_or_app. right. apply in_or_app. left. apply in_or_app. right. apply in_or_app. left. exact Ic. }
  destruct (mn_words w Lw' Lw) as [Ib|[->|(mo & Mw & Tb & Hm)]]; [exfalso; apply Nb, Iw, Ib|exfalso; apply Nm; rewrite E, Em; eexists (pre ++ grp m 1), _; rewrite <- !app_assoc; reflexivity|].
  unfold month_name_extract in X. apply bind_ret in X as (text & Et & X).
  assert (text = w ++ sp ++ tail) as ->.
  { change (grp m 0) with (m_str m) in Et. rewrite substr_from_ok in Et by (rewrite Em, app_length; lia). injection Et as <-. rewrite Em. rewrite skipn_app, skipn_all, Nat.sub_diag. reflexivity. }
  rewrite G2, Tb in X. destruct T as [[-> G3]|(yy & er & Ty & G3 & G4 & Dy & Ly & Le)].
  - rewrite G3 in X. cbn [is_nil] in X. destruct (month_implied _ _ _ _ _ _ H Hm X) as (Sd & En & Tx). split; [exact En|]. exists w, mo, sp, []. auto 8.
  - assert (exists e sp', er = sp' ++ era_word e /\ blanks sp' /\ (e = NoEra -> sp' = [])) as (e' & sp' & -> & B' & Ne).
    { destruct Le as [->|Le]; [exists NoEra, []; repeat split; constructor|]. destruct Ty as (sep & sp2 & -> & _ & _). do 3 (apply low_app in Ltail as [_ Ltail]).
      destruct (mn_eras er Ltail Le) as (e' & sp' & N & -> & B'). exists e', sp'. repeat split; auto. congruence. }
    assert (Lera : low (sp' ++ era_word e')) by (destruct Ty as (sep & sp2 & -> & _ & _); do 3 (apply low_app in Ltail as [_ Ltail]); exact Ltail).
    rewrite G3, G4 in X. replace (is_nil yy) with false in X by (destruct yy; [discriminate|reflexivity]). rewrite stoi_short in X by (auto; lia).
    pose proof (decimal_bounds yy Dy) as Bd. rewrite Ly in Bd.
    assert (Ey : era_year (decimal yy) (sp' ++ era_word e') = match e' with NoEra => if decimal yy <? 100 then decimal yy + 2000 else decimal yy | _ => year_in_era e' (decimal yy) end).
    { destruct e'; [rewrite (Ne eq_refl); reflexivity| | |]; apply era_year_ok; auto; discriminate. }
    destruct (era_year (decimal yy) (sp' ++ era_word e') =? -1) eqn:Q.
    + destruct (month_implied _ _ _ _ _ _ H Hm X) as ((S1 & S2 & S3 & _) & En & Tx). split; [exact En|]. exists w, mo, sp, tail. do 4 (split; [auto|]). right. exists yy, e', sp'. do 4 (split; [auto|]).
      do 3 (split; [assumption|]). intros C1 C2. exfalso. rewrite Ey in Q. apply Z.eqb_eq in Q. destruct e'; auto. specialize (C1 eq_refl). cbn [year_in_era] in C2. destruct (decimal yy <? 100); lia.
    + injection X as <-. split; [reflexivity|]. exists w, mo, sp, tail. do 4 (split; [auto|]). right. exists yy, e', sp'. do 4 (split; [auto|]).
      split; [comps|]. split; [comps|]. split; [comps|]. intros C1 C2. rewrite Ey. replace (match e' with NoEra => if decimal yy <? 100 then decimal yy + 2000 else decimal yy | _ => year_in_era e' (decimal yy) end) with (year_in_era e' (decimal yy)).
      * comps.
      * destruct e'; auto. specialize (C1 eq_refl). cbn [year_in_era]. replace (decimal yy <? 100) with false by lia. reflexivity.
Qed.
Lemma month_name_returns e g tx m t us idx : real_instant t us -> 1401 <= cy (mdate t) <= 9998 -> low tx -> search true month_name_re tx = Some m -> ~ In backslash tx -> ~ occurs (bs "may.") tx ->
  exists r, month_name_extract e g tx m (ptime_of t us) idx = Ret r /\ hasPossibleDates r = true.
Proof.
  intros H Hy L S Nb Nm. destruct (month_name_match _ _ L S) as (pre & post & w & sp & tail & E & _ & Em & G2 & Lw & B & T).
  assert (Lm : low (m_str m)) by (rewrite E in L; eapply low_part; exact L). rewrite Em in Lm. apply low_app in Lm as [_ Lm]. apply low_app in Lm as [Lw' Lm].
  assert (Iw : forall c, In c w -> In c tx).
  { intros c Ic. rewrite E, Em. apply in_or_app. right. apply in_or_app. left. apply in_or_app. right. apply in_or_app. left. exact Ic. }
  destruct (mn_words w Lw' Lw) as [Ib|[->|(mo & Mw & Tb & Hm)]]; [exfalso; apply Nb, Iw, Ib|exfalso; apply Nm; rewrite E, Em; eexists (pre ++ grp m 1), _; rewrite <- !app_assoc; reflexivity|].
  destruct (nearest_year_total (mdate t) mo 1 (proj1 (proj1 H)) Hy) as [y Ny]; [split; cbn [cy cm cd]; [lia|]; pose proof (month_len_bounds (cy (mdate t)) mo Hm); lia|].
  unfold month_name_extract. change (grp m 0) with (m_str m). rewrite substr_from_ok by (rewrite Em, app_length; lia). cbn [bind]. rewrite G2, Tb, pt_date_of by exact H. cbn [bind]. rewrite Ny. cbn [bind].
  assert (P : forall r y', getMonth (r_start r) = mo -> y' = r -> hasPossibleDates y' = true).
  { intros r y' M ->. unfold hasPossibleDates. rewrite M. replace (mo =? 0) with false by lia. rewrite !andb_false_r. reflexivity. }
  destruct (is_nil (grp m 3)) eqn:N3; [eexists; split; [reflexivity|eapply P; [|reflexivity]; reflexivity]|].
  destruct T as [[_ G3]|(yy & er & Ty & G3 & G4 & Dy & Ly & Le)]; [rewrite G3 in N3; discriminate|]. rewrite G3, stoi_short by (auto; lia).
  destruct (_ =? -1); eexists; (split; [reflexivity|eapply P; [|reflexivity]; reflexivity]).
Qed.
