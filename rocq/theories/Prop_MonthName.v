(** * Month names anywhere in a text (C102, C103) *)
From Verif Require Import Base Regex RegexParse Calendar Components Utils Execute Spec View ParserSpec PhraseSpec MonthSpec CalendarCycle CalendarFacts RegexFacts ResultFacts
  ExecuteFacts ParserRe MatchFacts LocateFacts HistoryFacts ParserFacts NumberFacts HolidayFacts MonthFacts ISOFacts CasualFacts Symbolic Open Segments FoundFacts FoundMonth P_MonthName Prop_Casual Prop_Month Prop_Middle Prop_Found Refiners Main Prop_Execute Prop_Tags MainFacts Prop_Main Prop_Answers Prop_Sentence.
From Coq Require Import ZifyBool ZifyNat ZifyN.
Open Scope string_scope.
Open Scope list_scope.
Open Scope Z_scope.


(** what the extraction makes of such a match *)
Lemma era_text_year v e er : era_text er e -> era_year v er = match e with NoEra => if v <? 100 then v + 2000 else v | _ => year_in_era e v end.
Proof. intros [->|[-> ->]]; [destruct e|]; reflexivity. Qed.
Lemma month_known e g tx mm t us idx lead mw m yr y cs r : real_instant t us -> tbl_get mw MONTH_CONSTANTS = m -> 1 <= m <= 12 -> year_part yr y -> caps_for yr y cs ->
  m_caps mm = (cs ++ [(2%nat, mw)]) ++ [(1%nat, lead)] -> m_str mm = lead ++ mw ++ yr -> month_name_extract e g tx mm (ptime_of t us) idx = Ret r ->
  has_end r = false /\ r_text r = mw ++ yr /\ r_index r = u32 idx /\ hasPossibleDates r = true /\ month_said t m y (r_start r).
Proof.
  intros H Tb Hm Y Cs Ec Es X. unfold month_name_extract in X. apply bind_ret in X as (text & Et & X).
  assert (G1 : grp mm 1 = lead). { unfold grp. rewrite Ec. destruct y as [[yy er]|]; cbn in Cs; [destruct Cs as (e0 & _ & [[_ ->]| ->])|subst cs]; reflexivity. }
  assert (G2 : grp mm 2 = mw). { unfold grp. rewrite Ec. destruct y as [[yy er]|]; cbn in Cs; [destruct Cs as (e0 & _ & [[_ ->]| ->])|subst cs]; reflexivity. }
  assert (text = mw ++ yr) as ->.
  { change (grp mm 0) with (m_str mm) in Et. rewrite G1, Es in Et. rewrite substr_from_ok in Et by (rewrite app_length; lia). injection Et as <-. rewrite skipn_app, skipn_all, Nat.sub_diag. reflexivity. }
  rewrite G2, Tb in X.
  assert (Imp : forall r', (refd <- pt_date (ptime_of t us) ;; y <- nearest_year refd m 1 ;;
     Ret (setTag TMonthName (on_start (fun p => implyComponent "year" y (setMonth m (implyComponent "mday" 1 p))) (res_new (ptime_of t us) idx (mw ++ yr))))) = Ret r' ->
     r_index r' = u32 idx /\ hasPossibleDates r' = true /\ month_said t m None (r_start r') /\ has_end r' = false /\ r_text r' = mw ++ yr).
  { intros r' Q. pose proof (month_implied _ _ _ _ _ _ H Hm Q) as (A1 & A2 & A3). apply bind_ret in Q as (rd & _ & Q). apply bind_ret in Q as (yv & _ & Q). apply RelativeFacts.ret_inj in Q.
    split; [rewrite <- Q; reflexivity|]. split; [rewrite <- Q; apply (possible_month _ m); [reflexivity|lia]|]. auto. }
  destruct y as [[yy e']|]; cbn [caps_for] in Cs.
  - destruct Cs as (er & Er & Cs).
    assert (G3 : grp mm 3 = yy) by (unfold grp; rewrite Ec; destruct Cs as [[_ ->]| ->]; reflexivity).
    assert (G4 : grp mm 4 = er) by (unfold grp; rewrite Ec; destruct Cs as [[-> ->]| ->]; reflexivity).
    assert (Dy : digits yy /\ List.length yy = 4%nat) by (inversion Y; auto). destruct Dy as [Dy Ly].
    rewrite G3, G4 in X. replace (is_nil yy) with false in X by (destruct yy; [discriminate|reflexivity]). rewrite stoi_short in X by (auto; lia).
    pose proof (decimal_bounds yy Dy) as Bd. rewrite Ly in Bd. pose proof (era_text_year (decimal yy) e' er Er) as Ey.
    destruct (era_year (decimal yy) er =? -1) eqn:Q.
    + destruct (Imp _ X) as (I1 & I2 & (S1 & S2 & S3 & _) & I4 & I5). do 4 (split; [assumption|]). do 3 (split; [assumption|]). intros C1 C2. exfalso. rewrite Ey in Q. apply Z.eqb_eq in Q. destruct e'; auto. specialize (C1 eq_refl). cbn [year_in_era] in C2. destruct (decimal yy <? 100); lia.
    + apply RelativeFacts.ret_inj in X. rewrite <- X. do 3 (split; [reflexivity|]). split; [apply (possible_month _ m); [reflexivity|lia]|].
      split; [comps|]. split; [comps|]. split; [comps|]. intros C1 C2. rewrite Ey. replace (match e' with NoEra => if decimal yy <? 100 then decimal yy + 2000 else decimal yy | _ => year_in_era e' (decimal yy) end) with (year_in_era e' (decimal yy)).
      * comps.
      * destruct e'; auto. specialize (C1 eq_refl). cbn [year_in_era]. replace (decimal yy <? 100) with false by lia. reflexivity.
  - subst cs. assert (G3 : grp mm 3 = []) by (unfold grp; rewrite Ec; reflexivity). rewrite G3 in X. cbn [is_nil] in X. destruct (Imp _ X) as (I1 & I2 & I3 & I4 & I5). auto.
Qed.

(** ** C102: found wherever it stands *)
Lemma month_here e y lead mw m yr yo T k : low (y ++ lead ++ mw ++ yr ++ T) -> month_spelt mw m -> year_part yr yo -> month_free y lead -> month_closed mw yo T -> (k <= List.length y)%nat ->
  sane e -> exists o cs, takes true month_name_re (lastc (skipn k y) None) (lead ++ mw ++ yr) T o ((cs ++ [(2%nat, mw)]) ++ [(1%nat, lead)]) /\ caps_for yr yo cs.
Proof.
  intros L Ms Y Fr Cl Hk _. assert (LT : low T) by (do 4 (apply low_app in L as [_ L]); exact L).
  destruct Fr as [[-> ->]|(Op & _)].
  - rewrite skipn_nil. cbn [app lastc fold_left]. destruct (month_taken None mw m yr yo T Ms Y LT Cl) as (cs & Ht & Hc). eexists _, cs. split; [|exact Hc]. apply start_then. exact Ht.
  - destruct (month_taken (lastc lead (lastc (skipn k y) None)) mw m yr yo T Ms Y LT Cl) as (cs & Ht & Hc). eexists _, cs. split; [|exact Hc].
    apply (lead_then _ lead (mw ++ yr) ((mw ++ yr) ++ T)); [exact Op| |destruct (head_letter _ _ Ms) as (c & v & -> & Hl); exists c; eexists; split; [reflexivity|exact Hl]|reflexivity|exact Ht].
    apply low_app in L as [_ L]. rewrite <- app_assoc. exact L.
Qed.
Theorem C102_month_names_stand : forall e g text t us rs y lead mw m yr yo T, sane e -> real_instant t us -> Z.of_nat (List.length text) < 2 ^ 32 ->
  to_lower text = y ++ lead ++ mw ++ yr ++ T -> month_spelt mw m -> year_part yr yo -> month_free y lead -> month_closed mw yo T ->
  x_res (execute e month_name g text (ptime_of t us)) = Ret rs ->
  exists res, In res rs /\ getIndex res = Z.of_nat (List.length y) /\ r_text res = mw ++ yr /\ has_end res = false /\ month_said t m yo (r_start res).
Proof.
  intros e g text t us rs y lead mw m yr yo T He H Hn E Ms Y Fr Cl X.
  assert (L : low (y ++ lead ++ mw ++ yr ++ T)) by (rewrite <- E; apply low_to_lower).
  destruct (spelt_known _ _ Ms) as (_ & _ & _ & Tb & Hm).
  pose proof (execute_scan e month_name g text (ptime_of t us) rs He (nonempty_all _ in_month_name) X) as Sc. rewrite month_name_compile in Sc. destruct Sc as (l & Sc & ->).
  destruct (scan_exact e month_name month_name_re (to_lower text) (ptime_of t us) y (lead ++ mw ++ yr ++ T) min_month E) with (3 := Sc) as (k & mm & res & g0 & g1 & A1 & A2 & A3 & A4 & A5 & _).
  - intros k Hk. destruct (month_here e y lead mw m yr yo T k L Ms Y Fr Cl Hk He) as (o & cs & K & _). unfold takes in K. rewrite <- !app_assoc in K. apply rm_sound in K as (s' & M & _). exists s'. exact M.
  - intros x a b v Ey Na Eb Nb. destruct Fr as [[-> _]|(Op & N1 & N2)]; [symmetry in Ey; apply app_eq_nil in Ey as [_ Ey]; contradiction|].
    apply (none_before_month y lead mw m (yr ++ T) a b v x Op Ms L N1 N2 Ey Na Eb Nb).
  - destruct (month_here e y lead mw m yr yo T k L Ms Y Fr Cl A1 He) as (o & cs & K & Hc). unfold takes in K. rewrite <- !app_assoc in K.
    assert (Ek : skipn k (to_lower text) = skipn k y ++ (lead ++ mw ++ yr ++ T)) by (rewrite E, skipn_app; replace (k - List.length y)%nat with 0%nat by lia; reflexivity).
    destruct (search_at _ _ _ _ _ A2 Ek ltac:(rewrite skipn_length; lia)) as (post & E1 & R). rewrite K in R. apply RegexFacts.some_inj in R. injection R as _ R1 R2. subst post.
    assert (Es : m_str mm = lead ++ mw ++ yr) by (apply (app_inv_tail T); rewrite <- E1, <- !app_assoc; reflexivity).
    cbn [p_extract month_name] in A4. unfold pure_extract in A4. apply (f_equal snd) in A4. cbn [snd] in A4.
    assert (R2' : m_caps mm = (cs ++ [(2%nat, mw)]) ++ [(1%nat, lead)]) by (rewrite <- R2, <- !app_assoc; reflexivity).
    destruct (month_known e g0 _ mm t us (Z.of_nat (List.length y)) lead mw m yr yo cs res H Tb Hm Y Hc R2' Es A4) as (B1 & B2 & B3 & B4 & B5).
    exists (res_copy res). split; [unfold kept; apply in_map, filter_In; split; [apply in_map_iff; exists (List.length y, mm, res); auto|exact B4]|].
    split; [unfold getIndex; cbn [r_index res_copy]; rewrite B3; apply u32_small; assert (Ln : List.length (to_lower text) = List.length text) by (unfold to_lower; apply map_length); rewrite E, !app_length in Ln; lia|].
    split; [exact B2|]. split; [exact B1|exact B5].
Qed.
Print Assumptions C102_month_names_stand.

(** the hypotheses are met: another month is named before the phrase, and the position counts the "n" and the blank before the name *)
Lemma spelt_name s m : In (s, m) month_names -> month_spelt (bs s) m.
Proof.
  intros I. split; [exists s; left; auto|]. pose proof (proj1 (forallb_forall (fun x => negb (String.eqb (fst x) "jun" || String.eqb (fst x) "jun.")) month_names) ltac:(vm_compute; reflexivity) _ I) as Q. cbn [fst] in Q. apply Bool.negb_true_iff, Bool.orb_false_iff in Q as [Q1 Q2].
  split; intros E; apply bs_inj in E; subst s; discriminate.
Qed.
Example C102_case : let t := Moment (Cal 2024 2 27) 9 15 0 in let text := bs "Since June we met; see you in March, 2012 BE or so" in
  real_instant t 3 /\ to_lower text = bs "since june we met; see you i" ++ bs "n " ++ bs "march" ++ bs ", 2012 be" ++ bs " or so" /\ month_spelt (bs "march") 3 /\ year_part (bs ", 2012 be") (Some (bs "2012", BE)) /\
  month_free (bs "since june we met; see you i") (bs "n ") /\ month_closed (bs "march") (Some (bs "2012", BE)) (bs " or so") /\
  exists r0 r, x_res (execute (benign_env "x"%char) month_name gwords_init text (ptime_of t 3)) = Ret [r0; r] /\ getIndex r = 28 /\ r_text r = bs "march, 2012 be" /\ certain Month 3 (r_start r) /\ certain Year 1469 (r_start r) /\ implied_is MDay 1 (r_start r).
Proof.
  cbv zeta. split; [inst|]. split; [reflexivity|]. split; [apply spelt_name; cbn; tauto|].
  split; [apply (yp_year ", " (bs "2012") (bs " be") BE); [cbn; tauto|repeat constructor|reflexivity|right; auto]|].
  split.
  { right. split; [exists "n"%char, (bs " "); split; [reflexivity|]; split; [reflexivity|]; split; [repeat constructor|]; left; split; [reflexivity|discriminate]|].
    split; [cbn; intuition discriminate|]. intros x sp E. injection E as <- _. intros (z & w & Ew & Hw).
    assert (Lst : forall w' d, w = w' ++ [d] -> d = "n"%char) by (intros w' d ->; change (bs "since june we met; see you i" ++ ["n"%char]) with (bs "since june we met; see you i" ++ bs "n") in Ew; rewrite app_assoc in Ew; apply app_inj_tail in Ew as [_ <-]; reflexivity).
    destruct Hw as [(m & s & Hs)|[->|(yy & sp' & e & -> & _ & _ & _ & N)]].
    - destruct Hs as [[I ->]|[I [-> | ->]]].
      + clear Ew. pose proof (proj1 (forallb_forall (fun x => match rev (bs (fst x)) with d :: _ => negb (Ascii.eqb d "n") | [] => false end) month_names) ltac:(vm_compute; reflexivity) _ I) as Q. cbn [fst] in Q.
        destruct (rev (bs s)) as [|d q] eqn:R; [discriminate|]. rewrite (Lst (rev q) d) in Q; [discriminate|]. rewrite <- (rev_involutive (bs s)), R. reflexivity.
      + assert (K : In s ["jan"; "jun"] \/ exists w' d, bs s = w' ++ [d] /\ d <> "n"%char).
        { pose proof (proj1 (forallb_forall (fun x => String.eqb (fst x) "jan" || String.eqb (fst x) "jun" || match rev (bs (fst x)) with d :: _ => negb (Ascii.eqb d "n") | [] => false end) month_short_names) ltac:(vm_compute; reflexivity) _ I) as Q. cbn [fst] in Q.
          destruct (String.eqb_spec s "jan") as [->|_]; [left; cbn; tauto|]. destruct (String.eqb_spec s "jun") as [->|_]; [left; cbn; tauto|]. right. cbn [orb] in Q. destruct (rev (bs s)) as [|d q] eqn:R; [discriminate|]. exists (rev q), d.
          split; [rewrite <- (rev_involutive (bs s)), R; reflexivity|]. intros ->. discriminate. }
        destruct K as [[<-|[<-|[]]]|(w' & d & E & N)]; [..|apply N; apply (Lst w' d E)].
        * change (bs "since june we met; see you i" ++ ["n"%char]) with (bs "since june we met; see you" ++ bs " in") in Ew. change (bs "jan") with ("j"%char :: bs "an") in Ew. change (bs " in") with (" "%char :: bs "in") in Ew.
          assert (Q : firstn 3 (rev (bs "since june we met; see you" ++ " "%char :: bs "in")) = firstn 3 (rev (z ++ "j"%char :: bs "an"))) by (rewrite Ew; reflexivity). rewrite (rev_app_distr z) in Q. vm_compute in Q. discriminate.
        * assert (Q : firstn 3 (rev (bs "since june we met; see you i" ++ ["n"%char])) = firstn 3 (rev (z ++ bs "jun"))) by (rewrite Ew; reflexivity). rewrite (rev_app_distr z) in Q. vm_compute in Q. discriminate.
      + specialize (Lst (bs s) "."%char eq_refl). discriminate.
    - specialize (Lst (bs "may") "."%char eq_refl). discriminate.
    - destruct e; [congruence|specialize (Lst (yy ++ sp' ++ bs "a") "d"%char)|specialize (Lst (yy ++ sp' ++ bs "b") "c"%char)|specialize (Lst (yy ++ sp' ++ bs "b") "e"%char)]; rewrite <- !app_assoc in Lst; specialize (Lst eq_refl); discriminate. }
  split; [cbn [month_closed]; right; left; exists "o"%char, (bs "r so"); split; [reflexivity|]; split; [reflexivity|]; split; [reflexivity|]; intros (T3 & Q); discriminate Q|].
  eexists _, _. split; [vm_compute; reflexivity|]. repeat split.
Qed.

(** ** C103: the answer of the program *)
(** the year that is meant: the one written, in its era; without one, the year in which the first of the month is nearest to the reference date *)
Definition month_year_is (t : moment) (m : Z) (yo : option (bytes * era)) (v : Z) : Prop :=
  match yo with None => nearest_year_to (mdate t) m 1 v | Some (yy, e) => v = year_in_era e (decimal yy) end.
Lemma month_answer t m yo r : month_said t m yo (r_start r) -> has_end r = false -> tag_is TExtractTZ r = false ->
  exists v, month_year_is t m yo v /\ (real_date (Cal v m 1) -> toDate r = Ret (bs (Spec.written (Moment (Cal v m 1) 0 0 0)))).
Proof.
  intros (S1 & S2 & U & Sy) En Tz.
  assert (V : forall f, In f [Hour; Min; Sec; TzOffset] -> api_get f (r_start r) = 0) by (intros f I; unfold untouched in U; rewrite Forall_forall in U; apply U; cbn in I |- *; tauto).
  assert (K : forall v, api_get Year (r_start r) = v -> real_date (Cal v m 1) -> toDate r = Ret (bs (Spec.written (Moment (Cal v m 1) 0 0 0)))).
  { intros v Hv R. apply toDate_start; auto; [|apply midnight_real; exact R].
    repeat split; [exact Hv|exact (certain_value _ _ _ S1)|exact (implied_value _ _ _ S2)|apply (V Hour)|apply (V Min)|apply (V Sec)]; cbn; tauto. }
  destruct yo as [[yy e]|]; cbn [month_year_is].
  - exists (year_in_era e (decimal yy)). split; [reflexivity|]. intros R. apply K; [|exact R]. destruct R as [_ R]. unfold in_range_year in R. cbn [cy] in R. apply certain_value. apply Sy; [intros ->; cbn in R; lia|lia].
  - destruct Sy as (v & Nv & Hv). exists v. split; [exact Nv|]. apply K. exact (implied_value _ _ _ Hv).
Qed.
Lemma in_parsers_mn : In month_name parsers. Proof. cbn; tauto. Qed.
Lemma untimed_mn e text ref l r : sane e -> alone e month_name text ref = Ret l -> In r l -> tag_is TTimeExpression r = false.
Proof.
  intros He X I. destruct (tag_is TTimeExpression r) eqn:T; [|reflexivity]. exfalso.
  assert (It : In (month_name, Some TMonthName) own_tag) by (cbn; tauto). pose proof (C73_only_own_tag e month_name _ gwords_init text ref l r TTimeExpression He It X I T) as Q. discriminate Q.
Qed.
Theorem C103_month_answer : forall e sortf text t us y lead mw m yr yo T, sane e -> is_sort sortf -> real_instant t us -> Z.of_nat (List.length text) < 2 ^ 32 ->
  to_lower text = y ++ lead ++ mw ++ yr ++ T -> month_spelt mw m -> year_part yr yo -> month_free y lead -> month_closed mw yo T ->
  (forall q, In q parsers -> exists l, alone e q text (ptime_of t us) = Ret l /\ forall r, In r l ->
     Z.of_nat (List.length y) <= getIndex r < Z.of_nat (List.length y) + Z.of_nat (List.length (mw ++ yr)) /\ (q = month_name \/ textLength r < Z.of_nat (List.length (mw ++ yr)))) ->
  exists v, month_year_is t m yo v /\ (real_date (Cal v m 1) -> main e sortf gwords_init text (ptime_of t us) = Ret (line (bs (Spec.written (Moment (Cal v m 1) 0 0 0))))).
Proof.
  intros e sortf text t us y lead mw m yr yo T He Hs H Hn Et Ms Y Fr Cl Al.
  destruct (Al month_name in_parsers_mn) as (l & El & Bl). destruct (C102_month_names_stand e gwords_init text t us l y lead mw m yr yo T He H Hn Et Ms Y Fr Cl El) as (res & I & Ix & Tx & En & Sd).
  destruct (month_answer t m yo res Sd En) as (v & Ym & Sy).
  { apply (C73_no_refiner_tag e month_name gwords_init text (ptime_of t us) l res TExtractTZ He (in_all _ in_parsers_mn) El I). left. reflexivity. }
  exists v. split; [exact Ym|]. intros Ex.
  assert (A : exists rs, all_alone e parsers text (ptime_of t us) = Ret rs).
  { assert (Q : exists rss, Forall2 (fun p l => alone e p text (ptime_of t us) = Ret l) parsers rss).
    { revert Al. clear. generalize parsers as ps. induction ps as [|q ps IH]; intros Al; [exists []; constructor|]. destruct (Al q (or_introl eq_refl)) as (l & El & _).
      destruct IH as [rss F]; [intros q' I'; apply Al; right; exact I'|]. exists (l :: rss). constructor; assumption. }
    destruct Q as [rss F]. exists (List.concat rss). apply all_alone_ret. eauto. }
  destruct A as [rs A].
  assert (Ir : In res rs) by (apply (all_alone_in _ _ _ _ _ A); exists month_name, l; split; [exact in_parsers_mn|split; [exact El|exact I]]).
  assert (Lr : textLength res = Z.of_nat (List.length (mw ++ yr))) by (unfold textLength; rewrite Tx; reflexivity).
  rewrite (main_dominant e sortf text (ptime_of t us) rs res He Hs A Ir (untimed_mn e text _ l res He El I)).
  - unfold shown. rewrite (Sy Ex). reflexivity.
  - intros r' Ir'. apply (all_alone_in _ _ _ _ _ A) in Ir' as (q & lq & Iq & Eq & Il). destruct (Al q Iq) as (l' & El' & Bq). rewrite El' in Eq. apply RelativeFacts.ret_inj in Eq. subst l'.
    destruct (Bq r' Il) as [B1 B2]. rewrite Ix, Lr.
    destruct B2 as [->|Q]; [left|right; clear - B1 Q; lia]. rewrite El in El'. apply RelativeFacts.ret_inj in El'. subst lq.
    pose proof (result_text _ _ _ _ _ _ _ He (in_all _ in_parsers_mn) El I) as T1. pose proof (result_text _ _ _ _ _ _ _ He (in_all _ in_parsers_mn) El Il) as T2.
    apply (in_order_unique (Z.of_nat (List.length text)) l).
    + apply (C13_results_in_order _ _ _ _ _ _ He (in_all _ in_parsers_mn) Hn El).
    + exact I.
    + exact Il.
    + unfold textLength. destruct (r_text res); [congruence|cbn [List.length]; clear; lia].
    + unfold textLength. destruct (r_text r'); [congruence|cbn [List.length]; clear; lia].
    + rewrite Ix, Lr. exact B1.
Qed.
Print Assumptions C103_month_answer.
Example C103_case : let t := Moment (Cal 2024 2 27) 9 15 0 in let text := bs "See you in October or so" in
  inside_only strict_env text (ptime_of t 3) month_name (bs "see you i") (bs "october") = true /\ nearest_year_to (mdate t) 10 1 2023 /\
  main strict_env sort_stable gwords_init text (ptime_of t 3) = Ret (line (bs "2023-Oct-01 00:00:00")) /\
  inside_only strict_env (bs "The fair of March, 2012 was fun") (ptime_of t 3) month_name (bs "the fair o") (bs "march, 2012") = true /\
  main strict_env sort_stable gwords_init (bs "The fair of March, 2012 was fun") (ptime_of t 3) = Ret (line (bs "2012-Mar-01 00:00:00")).
Proof. cbv zeta. split; [vm_compute; reflexivity|]. split; [|repeat split; vm_compute; reflexivity].
  assert (D : distance (Cal 2024 2 27) 10 1 2023 = 149 /\ distance (Cal 2024 2 27) 10 1 2024 = 217 /\ distance (Cal 2024 2 27) 10 1 2025 = 582) by (vm_compute; auto). destruct D as (D1 & D2 & D3).
  cbn [mdate]. split; [cbn [cy]; lia|]. split; [|cbn [cy]; rewrite D1, D2; lia]. cbn [cy]. intros y' Hy. assert (y' = 2023 \/ y' = 2024 \/ y' = 2025) as [-> |[-> | -> ]] by lia; rewrite ?D1, ?D2, ?D3; lia.
Qed.
