(** * MiddleMatch: what the month-day parser makes of a match *)
From Verif Require Import Base Regex RegexParse Calendar Components Utils Execute Spec View ParserSpec PhraseSpec MiddleSpec CalendarCycle CalendarFacts RegexFacts Template ResultFacts
  ExecuteFacts ParserRe MatchFacts LocateFacts HistoryFacts ParserFacts CasualFacts NumberFacts ISOFacts HolidayFacts MonthFacts OrdinalFacts Main P_MonthName P_MiddleEndian Prop_Utils MiddleFacts.
From Coq Require Import ZifyBool ZifyNat ZifyN.
Open Scope string_scope.
Open Scope list_scope.
Open Scope Z_scope.

Ltac me_words :=
  repeat match goal with
  | L : lang _ SPs _ |- _ => apply SPs_blanks in L
  | L : lang _ SPp _ |- _ => apply SPp_blanks in L
  | L : lang _ me_comma _ |- _ => apply comma_word in L; subst
  | L : lang _ me_on _ |- _ => apply on_word in L; [destruct L as (? & -> & ?)|assumption]
  | L : lang _ me_sep _ |- _ => apply sep_word in L; [|assumption]
  | L : lang _ me_suffix _ |- _ => apply suffix_word in L; [|assumption]
  | L : lang _ D12 _ |- _ => apply D12_digits in L as [? ?]
  | L : lang _ D14 _ |- _ => apply D14_digits in L as [? ?]
  | L : lang _ D4 _ |- _ => apply D4_digits in L as [? ?]
  | L : lang _ me_to _ |- _ => apply to_word in L; [|assumption]
  | L : lang _ me_ord2 _ |- _ => apply ord2_word in L as [? ?]; [|assumption]
  | L : lang _ me_era _ |- _ => apply era_words in L as (? & ? & ->); [|assumption]
  | L : lang _ me_era2 _ |- _ => apply era2_words in L as (? & ? & ->); [|assumption]
  end.

Lemma lead_inv p t c s' : low t -> mt true (ROpt true me_lead) (mkst p t c) s' ->
  exists l t' p' o, t = l ++ t' /\ weekday_part l o /\
    ((o = None /\ s' = mkst p' t' c) \/ exists wd k, o = Some k /\ weekday_word wd k /\ tbl_get wd WEEKDAY_OFFSET = k /\ low wd /\ wd <> [] /\ s' = mkst p' t' ((2%nat, wd) :: c)).
Proof.
  intros Lt [->|M]; [exists [], t, p, None; cbn; auto|]. unfold me_lead in M. mt_crack M; repeat (apply low_app in Lt as [? Lt]); me_words.
  all: match goal with L : lang _ me_wday ?wd |- _ => assert (Nw : wd <> []) by (intros ->; apply min_len_ok in L; vm_compute in L; lia); destruct (wday_word wd ltac:(assumption) L) as (k & Wk & Tk) end.
  - exists (w ++ w0 ++ w1), t0. eexists _, (Some k). split; [rewrite <- !app_assoc; reflexivity|]. split; [exists [], w, w0, [], w1; auto 8|]. right. exists w, k. auto 8.
  - exists (w ++ w0 ++ bs "," ++ w2), t. eexists _, (Some k). split; [rewrite <- !app_assoc; reflexivity|]. split; [exists [], w, w0, (bs ","), w2; auto 8|]. right. exists w, k. auto 8.
  - exists ((bs "on" ++ x) ++ w0 ++ w1 ++ w2), t. eexists _, (Some k). split; [rewrite <- !app_assoc; reflexivity|]. split; [exists (bs "on" ++ x), w0, w1, [], w2; eauto 10|]. right. exists w0, k. auto 8.
  - exists ((bs "on" ++ x) ++ w0 ++ w1 ++ bs "," ++ w3), t0. eexists _, (Some k). split; [rewrite <- !app_assoc; reflexivity|]. split; [exists (bs "on" ++ x), w0, w1, (bs ","), w3; eauto 10|]. right. exists w0, k. auto 8.
Qed.
Definition day_caps (dw : bytes) (o : option bytes) : list (nat * bytes) := (4%nat, dw) :: match o with Some dd => [(5%nat, dd)] | None => [] end.
Lemma day_inv p t c s' : low t -> mt true (RGrp 4 (RAlt (RCat (RGrp 5 D12) (ROpt true me_suffix)) me_ord1)) (mkst p t c) s' ->
  exists dw t' p' o, t = dw ++ t' /\ dw <> [] /\ s' = mkst p' t' (day_caps dw o ++ c) /\
    match o with Some dd => digits dd /\ (1 <= List.length dd <= 2)%nat /\ exists sf, ordinal_suffix sf /\ dw = dd ++ sf | None => exists n, says_ordinal dw n end.
Proof.
  intros Lt M. apply mt_grp_gen in M as (s1 & w & M & Ew & Lw & ->). fold (same t (w ++ s_rest s1)) in Ew. 
  assert (Nw : w <> []) by (intros ->; apply min_len_ok in Lw; vm_compute in Lw; lia). clear Lw.
  destruct M as [M|M]; mt_crack M; repeat (apply low_app in Lt as [? Lt]); me_words; shape_end Ew.
  - exists w0, t0. eexists _, (Some w0). subst w. split; [reflexivity|]. split; [exact Nw|]. split; [reflexivity|]. repeat (split; [assumption|]). exists []. rewrite app_nil_r. split; [left|]; reflexivity.
  - exists (w0 ++ w1), t. eexists _, (Some w0). subst w. split; [rewrite <- app_assoc; reflexivity|]. split; [exact Nw|]. split; [reflexivity|]. repeat (split; [assumption|]). exists w1. auto.
  - exists w0, t0. eexists _, None. subst w. split; [reflexivity|]. split; [exact Nw|]. split; [reflexivity|]. apply ord1_word; assumption.
Qed.
Definition range_caps (o : option (bytes * bytes * bool)) : list (nat * bytes) := match o with None => [] | Some (x, d, true) => [(6%nat, x); (7%nat, d)] | Some (x, _, false) => [(6%nat, x)] end.
Lemma range_inv p t c s' : low t -> mt true (ROpt true me_range) (mkst p t c) s' ->
  exists w t' p' o, t = w ++ t' /\ s' = mkst p' t' (range_caps o ++ c) /\
    match o with None => w = [] | Some (x, d, b) => to_part w (Some (d, b)) /\ x <> [] /\ (b = false -> x = d) end.
Proof.
  intros Lt [->|M]; [exists [], t, p, None; auto|]. unfold me_range in M. destruct M as (s1 & M1 & M). mt_crack M1. destruct M as (s2 & M2 & M). mt_crack M2. destruct M as (s3 & M3 & M).
  apply mt_grp_gen in M3 as (s4 & x & M3 & Ew & Lw & ->). match type of Ew with ?a = ?b => fold (same a b) in Ew end. assert (Nw : x <> []) by (intros ->; apply min_len_ok in Lw; vm_compute in Lw; lia). clear Lw. mt_crack M.
  destruct M3 as [M3|M3]; mt_crack M3; repeat (apply low_app in Lt as [? Lt]); me_words.
  all: cbn [Regex.s_rest Regex.s_prev Regex.s_caps] in *; shape_end Ew; match type of E with ?v = _ => subst v end; match type of Ew with _ = ?v => subst v end.
  - exists (w ++ w0 ++ w2 ++ w1), t0. eexists _, (Some (w2, w2, true)). split; [rewrite <- !app_assoc; reflexivity|]. split; [reflexivity|]. split; [|split; [exact Nw|discriminate]].
    exists w, w0, w2, w1. repeat (split; [assumption || reflexivity|]). exists []. rewrite app_nil_r. split; [left|]; reflexivity.
  - exists (w ++ w0 ++ (w2 ++ w3) ++ w1), t0. eexists _, (Some (w2 ++ w3, w2, true)). split; [rewrite <- !app_assoc; reflexivity|]. split; [reflexivity|]. split; [|split; [exact Nw|discriminate]].
    exists w, w0, (w2 ++ w3), w1. repeat (split; [assumption || reflexivity|]). exists w3. auto.
  - exists (w ++ w0 ++ w2 ++ w1), t0. eexists _, (Some (w2, w2, false)). split; [rewrite <- !app_assoc; reflexivity|]. split; [reflexivity|]. split; [|split; [exact Nw|reflexivity]].
    exists w, w0, w2, w1. repeat (split; [assumption || reflexivity|]). assumption.
Qed.
Definition year_caps (o : option (bytes * era)) (four : bool) : list (nat * bytes) :=
  match o with None => [] | Some (yy, e) => match four, e with true, NoEra => [(8%nat, yy)] | true, _ => [(9%nat, era_word e); (8%nat, yy)] | false, _ => [(11%nat, era_word e); (10%nat, yy)] end end.
Lemma year_inv p t c s' : low t -> mt true (ROpt true me_year) (mkst p t c) s' ->
  exists w t' p' o four, t = w ++ t' /\ s' = mkst p' t' (year_caps o four ++ c) /\ year_part w o /\
    match o with None => True | Some (yy, e) => digits yy /\ (1 <= List.length yy <= 4)%nat /\ (four = true \/ e <> NoEra) end.
Proof.
  intros Lt [->|M]; [exists [], t, p, None, true; repeat split|]. unfold me_year in M. destruct M as (s1 & M1 & M). mt_crack M1. destruct M as (s2 & M2 & M). destruct M2 as [M2|M2]; mt_crack M2; mt_crack M; repeat (apply low_app in Lt as [? Lt]); me_words.
  - exists (w ++ (w0 ++ w1 ++ era_word NoEra) ++ w2), t. eexists _, (Some (w0, NoEra)), true. split; [cbn [era_word]; rewrite ?app_nil_r, <- !app_assoc; reflexivity|]. split; [reflexivity|].
    split; [|split; [assumption|split; [lia|left; reflexivity]]]. exists w, (w0 ++ w1 ++ era_word NoEra), w2. split; [reflexivity|]. split; [assumption|]. split; [apply wy_four; assumption|apply L2].
  - exists (w ++ (w0 ++ w1 ++ era_word x) ++ w3), t0. eexists _, (Some (w0, x)), true. split; [rewrite <- !app_assoc; reflexivity|]. split; [destruct x; [congruence|reflexivity..]|].
    split; [|split; [assumption|split; [lia|left; reflexivity]]]. exists w, (w0 ++ w1 ++ era_word x), w3. split; [reflexivity|]. split; [assumption|]. split; [apply wy_four; assumption|assumption].
  - exists (w ++ (w0 ++ w1 ++ era_word x) ++ w3), t0. eexists _, (Some (w0, x)), false. split; [rewrite <- !app_assoc; reflexivity|]. split; [(match goal with E : _ = AD \/ _ = BC |- _ => destruct E as [-> | ->] end); reflexivity|].
    split; [|split; [assumption|split; [assumption|right; (match goal with E : _ = AD \/ _ = BC |- _ => destruct E as [-> | ->] end); discriminate]]]. exists w, (w0 ++ w1 ++ era_word x), w3. split; [reflexivity|]. split; [assumption|]. split; [apply wy_era; assumption|assumption].
Qed.

(** ** the whole match *)
Record me_parts := MeParts { pa_lead : bytes; pa_wd : option Z; pa_wdw : bytes; pa_month : bytes; pa_sep : bytes; pa_day : bytes; pa_dd : option bytes; pa_gap : bytes; pa_to : bytes; pa_rg : option (bytes * bytes * bool);
  pa_yr : bytes; pa_year : option (bytes * era); pa_four : bool }.
Definition me_text (x : me_parts) : bytes := pa_lead x ++ pa_month x ++ pa_sep x ++ pa_day x ++ pa_gap x ++ pa_to x ++ pa_yr x.
Definition me_ok (x : me_parts) : Prop :=
  weekday_part (pa_lead x) (pa_wd x) /\
  match pa_wd x with None => pa_wdw x = [] | Some k => weekday_word (pa_wdw x) k /\ tbl_get (pa_wdw x) WEEKDAY_OFFSET = k /\ low (pa_wdw x) /\ pa_wdw x <> [] end /\
  (pa_month x = bs "may." \/ exists m, month_word (pa_month x) m /\ tbl_get (pa_month x) MONTH_CONSTANTS = m /\ 1 <= m <= 12) /\ date_separator (pa_sep x) /\
  match pa_dd x with Some dd => digits dd /\ (1 <= List.length dd <= 2)%nat /\ exists sf, ordinal_suffix sf /\ pa_day x = dd ++ sf | None => exists n, says_ordinal (pa_day x) n end /\
  blanks (pa_gap x) /\ pa_gap x <> [] /\
  match pa_rg x with None => pa_to x = [] | Some (y, d, b) => to_part (pa_to x) (Some (d, b)) /\ y <> [] /\ (b = false -> y = d) end /\
  year_part (pa_yr x) (pa_year x) /\
  match pa_year x with None => True | Some (yy, e) => digits yy /\ (1 <= List.length yy <= 4)%nat /\ (pa_four x = true \/ e <> NoEra) end.
Definition me_grps (x : me_parts) (m : mres) : Prop :=
  grp m 0 = me_text x /\ grp m 2 = pa_wdw x /\ grp m 3 = pa_month x /\ grp m 4 = pa_day x /\ grp m 5 = match pa_dd x with Some dd => dd | None => [] end /\
  grp m 6 = match pa_rg x with Some (y, _, _) => y | None => [] end /\ grp m 7 = match pa_rg x with Some (_, d, true) => d | _ => [] end /\
  grp m 8 = match pa_year x with Some (yy, _) => if pa_four x then yy else [] | None => [] end /\
  grp m 10 = match pa_year x with Some (yy, _) => if pa_four x then [] else yy | None => [] end /\
  (if is_nil (grp m 11) then grp m 9 else grp m 11) = match pa_year x with Some (_, e) => era_word e | None => [] end.
Lemma middle_endian_match t m : low t -> search true middle_endian_re t = Some m ->
  exists pre post x, t = pre ++ m_str m ++ post /\ m_pos m = List.length pre /\ me_ok x /\ me_grps x m.
Proof.
  intros Lt H. shape H. assert (Lr : low suf). { unfold same in Es. rewrite Es. rewrite Et in Lt. apply low_app in Lt as [_ Lt]. exact Lt. }
  unfold middle_endian_re in M. destruct M as (s1 & M1 & M). mt_crack M1. destruct M as (s2 & M2 & M).
  destruct (lead_inv _ _ _ _ Lr M2) as (l & t1 & p1 & owd & -> & Wl & Cl). apply low_app in Lr as [_ Lr].
  assert (exists cs wdw, s2 = mkst p1 t1 (cs ++ [(1%nat, [])]) /\ cs = match owd with None => [] | Some _ => [(2%nat, wdw)] end /\ 
     match owd with None => wdw = [] | Some k => weekday_word wdw k /\ tbl_get wdw WEEKDAY_OFFSET = k /\ low wdw /\ wdw <> [] end) as (cs & wdw & -> & Ec & Wd).
  { destruct Cl as [[-> ->]|(wd & k & -> & ? & ? & ? & ? & ->)]; [exists [], []; auto|]. exists [(2%nat, wd)], wd. auto 8. }
  clear Cl M2. destruct M as (s3 & M3 & M). mt_crack M3. apply low_app in Lr as [Lm Lr]. destruct M as (s4 & M4 & M). mt_crack M4. apply low_app in Lr as [Ls Lr]. destruct M as (s5 & M5 & M).
  destruct (day_inv _ _ _ _ Lr M5) as (dw & t4 & p4 & odd & -> & Nd & -> & Pd). clear M5. apply low_app in Lr as [_ Lr]. destruct M as (s6 & M6 & M). mt_crack M6.
  destruct M as (s7 & M7 & M). mt_crack M7. apply low_app in Lr as [_ Lr]. destruct M as (s8 & M8 & M). destruct (range_inv _ _ _ _ Lr M8) as (rg & t6 & p6 & org & -> & -> & Pr). clear M8. apply low_app in Lr as [_ Lr].
  destruct M as (s9 & M9 & M). destruct (year_inv _ _ _ _ Lr M9) as (yr & t7 & p7 & oyr & four & -> & -> & Yp & Py). clear M9. mt_crack M. me_words.
  match goal with L : lang _ me_month ?v |- _ => apply me_month_word in L; [|assumption] end.
  exists pre. eexists. exists (MeParts l owd wdw w w0 dw odd w1 rg org yr oyr four). split; [reflexivity|]. split; [exact Pos|]. split.
  { unfold me_ok. cbn [pa_lead pa_wd pa_wdw pa_month pa_sep pa_day pa_dd pa_gap pa_to pa_rg pa_yr pa_year pa_four]. destruct L1. auto 12. }
  clear H Hlook Hlook0 Lt. shape_end Es. unfold me_grps, me_text. cbn [pa_lead pa_wd pa_wdw pa_month pa_sep pa_day pa_dd pa_gap pa_to pa_rg pa_yr pa_year pa_four].
  split; [unfold grp; rewrite <- Es; reflexivity|]. clear - C Wd Py Pr. unfold grp. rewrite C. clear C.
  destruct owd as [k|]; [|subst wdw]; (destruct odd as [dd|]); (destruct org as [[[y d] [|]]|]); (destruct oyr as [[yy [| | |]]|]); destruct four; try (exfalso; destruct Py as (_ & _ & [Q|Q]); congruence); cbn; auto 12.
Qed.
