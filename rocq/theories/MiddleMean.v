(** * MiddleMean: what the month-day parser returns *)
From Verif Require Import Base Regex RegexParse Calendar Components Utils Execute Spec View ParserSpec PhraseSpec MiddleSpec CalendarCycle CalendarFacts RegexFacts Template ResultFacts
  ExecuteFacts ParserRe MatchFacts LocateFacts HistoryFacts ParserFacts CasualFacts NumberFacts ISOFacts HolidayFacts MonthFacts OrdinalFacts Main P_MonthName P_MiddleEndian Prop_Utils MiddleFacts MiddleMatch MiddleSpec.
From Coq Require Import ZifyBool ZifyNat ZifyN.
Open Scope string_scope.
Open Scope list_scope.
Open Scope Z_scope.

Definition day_read (x : me_parts) (n : Z) : Prop := match pa_dd x with Some dd => n = decimal dd | None => says_ordinal (pa_day x) n end.
Lemma day_number x m : me_ok x -> me_grps x m -> low (pa_day x) -> exists n, (if is_nil (grp m 5) then argToOrdinalValue (grp m 4) else stoi (grp m 5)) = Ret n /\ mday_word (pa_day x) n /\ day_read x n /\ 0 <= n <= 99.
Proof.
  intros (_ & _ & _ & _ & D & _) (_ & _ & _ & G4 & G5 & _) Ld. rewrite G4, G5. unfold day_read. destruct (pa_dd x) as [dd|].
  - destruct D as (Dd & Ll & sf & Sf & ->). replace (is_nil dd) with false by (destruct dd; [cbn in Ll; lia|reflexivity]). exists (decimal dd). split; [apply stoi_short; [exact Dd|lia]|].
    split; [apply dw_digits; assumption|]. split; [reflexivity|]. pose proof (decimal_bounds dd Dd) as B. assert (10 ^ Z.of_nat (Datatypes.length dd) <= 10 ^ 2) by (apply Z.pow_le_mono_r; lia). lia.
  - destruct D as (n & Sn). exists n. cbn [is_nil]. split; [apply C56_ordinal_words; rewrite low_lower by exact Ld; exact Sn|]. split; [apply dw_ordinal; exact Sn|]. split; [exact Sn|]. pose proof (C56_range _ _ Sn). lia.
Qed.
Lemma year_number x m : me_ok x -> me_grps x m -> middle_endian_year m = Ret (match pa_year x with None => -1 | Some (yy, e) => match e with NoEra => if decimal yy <? 100 then decimal yy + 2000 else decimal yy | _ => year_in_era e (decimal yy) end end).
Proof.
  intros (_ & _ & _ & _ & _ & _ & _ & _ & _ & Y) (_ & _ & _ & _ & _ & _ & _ & G8 & G10 & G9). unfold middle_endian_year. cbv zeta. rewrite G9, G8, G10. destruct (pa_year x) as [[yy e]|]; [|reflexivity].
  destruct Y as (Dy & Ly & Fe). assert (Ny : yy <> []) by (destruct yy; [cbn in Ly; lia|discriminate]).
  assert (Ei : is_nil yy = false) by (destruct yy; [congruence|reflexivity]).
  assert (Es : (if is_nil (if pa_four x then [] else yy) then (if pa_four x then yy else []) else (if pa_four x then [] else yy)) = yy) by (destruct (pa_four x); cbn [is_nil]; rewrite ?Ei; reflexivity).
  rewrite Es. replace (is_nil (if pa_four x then yy else []) && is_nil (if pa_four x then [] else yy)) with false by (destruct (pa_four x); cbn [is_nil]; rewrite ?Ei; reflexivity).
  rewrite stoi_short by (auto; lia). cbn [bind]. f_equal. destruct e as [| | |] eqn:Ee; [reflexivity|refine (era_year_ok (decimal yy) AD [] _ _ _)|refine (era_year_ok (decimal yy) BC [] _ _ _)|refine (era_year_ok (decimal yy) BE [] _ _ _)]; try discriminate; repeat constructor.
Qed.
Definition md_of (x : me_parts) (mo d : Z) : month_day := MonthDay (pa_wd x) mo d (match pa_rg x with Some (_, d, b) => Some (d, b) | None => None end) (pa_year x).
Lemma to_number x m : me_ok x -> me_grps x m -> match pa_rg x with None => grp m 6 = [] | Some (_, d, b) => grp m 6 <> [] /\ (if is_nil (grp m 7) then argToOrdinalValue (grp m 7) else stoi (grp m 7)) = Ret (if b then decimal d else 0) end.
Proof.
  intros (_ & _ & _ & _ & _ & _ & _ & R & _) (_ & _ & _ & _ & _ & G6 & G7 & _). rewrite G6, G7. destruct (pa_rg x) as [[[y d] b]|]; [|reflexivity]. destruct R as (To & Ny & _). split; [exact Ny|].
  destruct b; [|vm_compute; reflexivity]. destruct To as (to & sp & z & sp' & _ & _ & _ & _ & Dd & Ll & _). assert (d <> []) by (destruct d; [cbn in Ll; lia|discriminate]).
  replace (is_nil d) with false by (destruct d; [congruence|reflexivity]). apply stoi_short; auto; lia.
Qed.
(** the result of a match whose month and day are usable *)
Definition me_result (x : me_parts) (ref : ptime) (idx : Z) (mo d y : Z) : result :=
  let r := on_start (fun p => setYear y (setMonth mo (set_mDay d p))) (res_new ref idx (me_text x)) in
  let r := match pa_wd x with Some k => on_start (set_wDay k) r | None => r end in
  let r := match pa_rg x with Some (_, d', b) => makeEndDateValid (with_end (setMinute 59 (setHour 23 (set_mDay (if b then decimal d' else 0) (r_start r)))) r) | None => r end in
  setTag TMiddleEndian r.
Definition written (x : me_parts) : Z := match pa_year x with None => -1 | Some (yy, e) => match e with NoEra => if decimal yy <? 100 then decimal yy + 2000 else decimal yy | _ => year_in_era e (decimal yy) end end.
Lemma extract_eq e g tx m x ref idx : me_ok x -> me_grps x m -> low (me_text x) ->
  exists d, mday_word (pa_day x) d /\ day_read x d /\ 0 <= d <= 99 /\
   middle_endian_extract e g tx m ref idx =
   let mo := tbl_get (pa_month x) MONTH_CONSTANTS in
   if (mo =? 0) || (12 <? mo) || (d =? 0) || (31 <? d) then Ret (res_new ref idx (me_text x)) else
   y <- (if written x =? -1 then refd <- pt_date ref ;; nearest_year refd mo d else Ret (written x)) ;; Ret (me_result x ref idx mo d y).
Proof.
  intros O G L. assert (Ld : low (pa_day x)) by (unfold me_text in L; do 3 (apply low_app in L as [_ L]); apply low_app in L as [L _]; exact L).
  destruct (day_number x m O G Ld) as (d & Ed & Wd & Rd & Bd). exists d. split; [exact Wd|]. split; [exact Rd|]. split; [exact Bd|]. unfold middle_endian_extract. cbv zeta. rewrite Ed. cbn [bind].
  replace (u16 d) with d by (unfold u16; rewrite Z.mod_small; lia). rewrite (year_number x m O G). fold (written x). pose proof (to_number x m O G) as Rn.
  pose proof O as (_ & W & _). pose proof G as (-> & G2 & -> & _). rewrite G2. set (mo := tbl_get (pa_month x) MONTH_CONSTANTS). destruct (_ || _); [reflexivity|].
  match goal with |- bind ?a _ = bind ?b _ => change b with a; destruct a as [y| | | |]; try reflexivity end. cbn [bind].
  assert (E2 : forall r, (if is_nil (pa_wdw x) then r else on_start (set_wDay (tbl_get (to_lower (pa_wdw x)) WEEKDAY_OFFSET)) r) = match pa_wd x with Some k => on_start (set_wDay k) r | None => r end).
  { intros r. destruct (pa_wd x) as [k|]; [|rewrite W; reflexivity]. destruct W as (_ & Tk & Lk & Nk). rewrite low_lower, Tk by exact Lk. destruct (pa_wdw x); [congruence|reflexivity]. }
  rewrite E2. unfold me_result. cbv zeta. destruct (pa_rg x) as [[[y0 d'] b]|]; [|rewrite Rn; reflexivity]. destruct Rn as [N6 E7]. replace (is_nil (grp m 6)) with false by (destruct (grp m 6); [congruence|reflexivity]).
  rewrite E7. reflexivity.
Qed.
Lemma me_form x mo d : me_ok x -> month_word (pa_month x) mo -> mday_word (pa_day x) d -> month_day_form (me_text x) (md_of x mo d).
Proof.
  intros (W & _ & _ & Sp & _ & Bg & Ng & R & Y & _) Mw Dw. exists (pa_lead x), (pa_month x), (pa_sep x), (pa_day x), (pa_gap x), (pa_to x), (pa_yr x). unfold me_text, md_of. cbn [md_weekday md_month md_day md_to md_year].
  repeat (split; [assumption || reflexivity|]). split; [|exact Y]. destruct (pa_rg x) as [[[y0 d'] b]|]; [apply R|exact R].
Qed.
Lemma me_said x t us idx mo d y : year_meant t (md_of x mo d) y -> month_day_said t (md_of x mo d) (me_result x (ptime_of t us) idx mo d y).
Proof.
  intros Ym. exists y. split; [exact Ym|]. unfold me_result, md_of. cbv zeta. cbn [md_weekday md_month md_day md_to md_year]. destruct (pa_wd x) as [k|], (pa_rg x) as [[[y0 d'] b]|]; unfold date_said; cbn [md_weekday md_month].
  all: repeat match goal with |- _ /\ _ => split end; comps.
Qed.
Lemma ret_same {A} (a b : A) : Ret a = Ret b -> a = b.
Proof. congruence. Qed.
Lemma year_ok x t mo d y : me_ok x -> real_date (mdate t) -> (if written x =? -1 then nearest_year (dn_of (mdate t)) mo d else Ret (written x)) = Ret y -> year_meant t (md_of x mo d) y.
Proof.
  intros O R H. pose proof O as (_ & _ & _ & _ & _ & _ & _ & _ & _ & Dy).
  unfold year_meant, written, nearby_year in *. cbn [md_of md_year md_month md_day]. destruct (pa_year x) as [[yy e]|].
  - destruct (_ =? -1) eqn:Q.
    + apply nearest_year_value in H as (_ & _ & B & N); [|exact R]. split; [|split; [|auto]].
      * intros C1 C2. exfalso. apply Z.eqb_eq in Q. destruct e; auto. specialize (C1 eq_refl). cbn [year_in_era] in C2. destruct (decimal yy <? 100); lia.
      * intros -> C. exfalso. apply Z.eqb_eq in Q. replace (decimal yy <? 100) with true in Q by lia. cbn [year_in_era] in *. pose proof (decimal_bounds yy (proj1 Dy)). lia.
    + apply ret_same in H. subst y. split; [|split].
      * intros C1 C2. destruct e; auto. specialize (C1 eq_refl). replace (decimal yy <? 100) with false by lia. reflexivity.
      * intros -> C. replace (decimal yy <? 100) with true by lia. reflexivity.
      * intros C. exfalso. destruct e; try (rewrite C in Q; discriminate). cbn [year_in_era] in C. pose proof (decimal_bounds yy (proj1 Dy)). lia.
  - cbn [Z.eqb Pos.eqb] in H. apply nearest_year_value in H as (_ & _ & B & N); [auto|exact R].
Qed.

(** every result of the parser: the bare one (which is dropped), or a date with the form and meaning of MiddleSpec *)
Lemma middle_endian_extracted e g tx m t us idx r : real_instant t us -> low tx -> search true middle_endian_re tx = Some m ->
  middle_endian_extract e g tx m (ptime_of t us) idx = Ret r ->
  r = res_new (ptime_of t us) idx (grp m 0) \/
  exists x, month_day_form (r_text r) x /\ 1 <= md_month x <= 12 /\ 1 <= md_day x <= 31 /\ month_day_said t x r.
Proof.
  intros H L Sm X. destruct (middle_endian_match _ _ L Sm) as (pre & post & x & E & _ & O & G).
  assert (Lt : low (me_text x)) by (pose proof G as (G0 & _); rewrite <- G0; rewrite E in L; apply low_app in L as [_ L]; apply low_app in L as [L _]; exact L).
  destruct (extract_eq e g tx m x (ptime_of t us) idx O G Lt) as (d & Wd & _ & Bd & Ex). rewrite Ex in X. cbv zeta in X. clear Ex.
  destruct (_ || _) eqn:Q; [left; apply ret_same in X; subst r; destruct G as (-> & _); reflexivity|right].
  rewrite pt_date_of in X by exact H. cbn [bind] in X. apply bind_ret in X as (y & Ey & X). apply ret_same in X. subst r.
  apply year_ok in Ey; [|exact O|apply H]. pose proof O as (_ & _ & [Em|(mo & Mw & Tb & Hm)] & _); [rewrite Em in Q; vm_compute in Q; discriminate|]. rewrite Tb in *.
  exists (md_of x mo d). split; [|split; [exact Hm|split; [cbn [md_of md_day]; lia|apply me_said; exact Ey]]].
  replace (r_text (me_result x (ptime_of t us) idx mo d y)) with (me_text x) by (unfold me_result; destruct (pa_wd x), (pa_rg x) as [[[? ?] ?]|]; reflexivity).
  apply me_form; assumption.
Qed.
Lemma bare_dropped ref idx tx : hasPossibleDates (res_new ref idx tx) = false.
Proof. reflexivity. Qed.
(** when it returns: the day must exist in the reference year *)
Lemma middle_endian_returns e g tx m t us idx : real_instant t us -> 1401 <= cy (mdate t) <= 9998 -> low tx -> search true middle_endian_re tx = Some m ->
  (forall mw mo sep dw d, month_word mw mo -> date_separator sep -> mday_word dw d -> occurs (mw ++ sep ++ dw) tx -> 1 <= d <= 31 -> d <= month_len (cy (mdate t)) mo) ->
  exists r, middle_endian_extract e g tx m (ptime_of t us) idx = Ret r.
Proof.
  intros H Hy L Sm D. destruct (middle_endian_match _ _ L Sm) as (pre & post & x & E & _ & O & G).
  assert (Lt : low (me_text x)) by (pose proof G as (G0 & _); rewrite <- G0; rewrite E in L; apply low_app in L as [_ L]; apply low_app in L as [L _]; exact L).
  destruct (extract_eq e g tx m x (ptime_of t us) idx O G Lt) as (d & Wd & _ & Bd & Ex). rewrite Ex. cbv zeta. clear Ex. destruct (_ || _) eqn:Q; [eauto|].
  rewrite pt_date_of by exact H. cbn [bind]. destruct (written x =? -1); [|eexists; reflexivity].
  pose proof O as (_ & _ & [Em|(mo & Mw & Tb & Hm)] & Sp & _); [rewrite Em in Q; vm_compute in Q; discriminate|]. rewrite Tb in *.
  destruct (nearest_year_total (mdate t) mo d (proj1 (proj1 H)) Hy) as [y Ny].
  - split; cbn [cy cm cd]; [lia|]. split; [lia|]. apply (D (pa_month x) mo (pa_sep x) (pa_day x) d); auto; [|lia].
    exists (pre ++ pa_lead x), (pa_gap x ++ pa_to x ++ pa_yr x ++ post). rewrite E. pose proof G as (G0 & _). change (grp m 0) with (m_str m) in G0. rewrite G0. unfold me_text. rewrite <- !app_assoc. reflexivity.
  - rewrite Ny. eexists; reflexivity.
Qed.
(** no result is dropped when the month is not "may." and the day lies between 1 and 31 *)
Lemma middle_endian_possible e g tx m t us idx r : real_instant t us -> low tx -> search true middle_endian_re tx = Some m -> ~ occurs (bs "may.") tx ->
  (forall mw mo sep dw d, month_word mw mo -> date_separator sep -> mday_word dw d -> occurs (mw ++ sep ++ dw) tx -> 1 <= d <= 31) ->
  middle_endian_extract e g tx m (ptime_of t us) idx = Ret r -> hasPossibleDates r = true.
Proof.
  intros H L Sm Nm D X. destruct (middle_endian_match _ _ L Sm) as (pre & post & x & E & _ & O & G).
  assert (Lt : low (me_text x)) by (pose proof G as (G0 & _); rewrite <- G0; rewrite E in L; apply low_app in L as [_ L]; apply low_app in L as [L _]; exact L).
  destruct (extract_eq e g tx m x (ptime_of t us) idx O G Lt) as (d & Wd & _ & Bd & Ex). rewrite Ex in X. cbv zeta in X. clear Ex.
  assert (Et : tx = (pre ++ pa_lead x) ++ (pa_month x ++ pa_sep x ++ pa_day x) ++ (pa_gap x ++ pa_to x ++ pa_yr x ++ post)).
  { rewrite E. pose proof G as (G0 & _). change (grp m 0) with (m_str m) in G0. rewrite G0. unfold me_text. rewrite <- !app_assoc. reflexivity. }
  pose proof O as (_ & _ & [Em|(mo & Mw & Tb & Hm)] & Sp & _).
  - exfalso. apply Nm. rewrite Et, Em. exists (pre ++ pa_lead x), ((pa_sep x ++ pa_day x) ++ pa_gap x ++ pa_to x ++ pa_yr x ++ post). rewrite <- !app_assoc. reflexivity.
  - rewrite Tb in X. assert (B : 1 <= d <= 31) by (apply (D (pa_month x) mo (pa_sep x) (pa_day x) d); auto; eexists _, _; exact Et).
    replace ((mo =? 0) || (12 <? mo) || (d =? 0) || (31 <? d)) with false in X by lia. apply bind_ret in X as (y & _ & X). apply ret_same in X. subst r.
    assert (M : getMonth (r_start (me_result x (ptime_of t us) idx mo d y)) = mo) by (unfold me_result; destruct (pa_wd x), (pa_rg x) as [[[? ?] ?]|]; reflexivity).
    unfold hasPossibleDates. rewrite M. replace (mo =? 0) with false by lia. rewrite !andb_false_r. reflexivity.
Qed.
Lemma day_read_inj x a b : low (pa_day x) -> day_read x a -> day_read x b -> a = b.
Proof.
  unfold day_read. intros L. destruct (pa_dd x); [congruence|]. intros A B. apply ret_same. rewrite <- (C56_ordinal_words (pa_day x) a), <- (C56_ordinal_words (pa_day x) b); [reflexivity|rewrite low_lower by exact L; assumption..].
Qed.
(** a match whose parts are known *)
Lemma middle_endian_known e g tx m x t us idx mo d : real_instant t us -> low (me_text x) -> me_ok x -> me_grps x m -> day_read x d -> tbl_get (pa_month x) MONTH_CONSTANTS = mo -> 1 <= mo <= 12 -> 1 <= d <= 31 ->
  (forall r, middle_endian_extract e g tx m (ptime_of t us) idx = Ret r -> exists y, year_meant t (md_of x mo d) y /\ r = me_result x (ptime_of t us) idx mo d y) /\
  (1401 <= cy (mdate t) <= 9998 -> (written x = -1 -> d <= month_len (cy (mdate t)) mo) -> exists r, middle_endian_extract e g tx m (ptime_of t us) idx = Ret r).
Proof.
  intros H L O G Rd Tm Hm Hd. assert (Ld : low (pa_day x)) by (unfold me_text in L; do 3 (apply low_app in L as [_ L]); apply low_app in L as [L _]; exact L).
  destruct (extract_eq e g tx m x (ptime_of t us) idx O G L) as (d' & _ & Rd' & _ & Ex). assert (d' = d) by (apply (day_read_inj x); assumption). subst d'. cbv zeta in Ex. rewrite Tm in Ex.
  replace ((mo =? 0) || (12 <? mo) || (d =? 0) || (31 <? d)) with false in Ex by lia. rewrite pt_date_of in Ex by exact H. cbn [bind] in Ex. rewrite Ex. clear Ex. split.
  - intros r X. apply bind_ret in X as (y & Ey & X). apply ret_same in X. exists y. split; [apply year_ok; [exact O|apply H|exact Ey]|congruence].
  - intros Hy D. destruct (written x =? -1) eqn:Q; [|eexists; reflexivity]. destruct (nearest_year_total (mdate t) mo d (proj1 (proj1 H)) Hy) as [y Ny].
    + split; cbn [cy cm cd]; [lia|]. specialize (D ltac:(lia)). lia.
    + rewrite Ny. eexists. reflexivity.
Qed.
