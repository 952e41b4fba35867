(** * When the refiners return, and what they leave can be shown *)
From Verif Require Import Base Regex RegexParse Calendar Components Utils Execute Spec View CalendarCycle CalendarFacts RegexFacts ResultFacts
  ExecuteFacts ParserFacts OverlapFacts ZoneFacts MergeFacts Refiners Main MainFacts Prop_Refine Prop_Dates.
From Coq Require Import ZifyBool ZifyNat.
Open Scope string_scope.
Open Scope list_scope.
Open Scope Z_scope.

(** ** The loops, for any property of results *)
Definition inside (text : bytes) (r : result) : Prop := 0 <= starts r /\ stops r <= Z.of_nat (List.length text).
Lemma mdt_loop_all (P : result -> Prop) text : (forall a, P a -> inside text a) ->
  (forall d t, P d -> P t -> exists m, mdt_merge text d t = Ret m /\ P m) ->
  forall n l curr, (List.length l <= n)%nat -> Forall P l -> (isEmpty curr = true \/ P curr) -> exists out, mdt_loop text curr l = Ret out /\ Forall P out.
Proof.
  intros Hi Hm. assert (Last : forall curr, (isEmpty curr = true \/ P curr) -> exists out, Ret (if isEmpty curr then [] else [curr]) = Ret out /\ Forall P out).
  { intros curr [E|Pc]; [rewrite E; eexists; split; [reflexivity|constructor]|]. eexists; split; [reflexivity|]. destruct (isEmpty curr); repeat constructor; exact Pc. }
  induction n as [|n IH]; intros l curr Ln F Hc; [destruct l; [|cbn in Ln; lia]; cbn [mdt_loop]; auto|].
  destruct l as [|a [|b rest]]; [cbn [mdt_loop]; auto|cbn [mdt_loop]; auto|].
  inversion F as [|? ? Pa F']; subst. inversion F' as [|? ? Pb Fr]; subst.
  cbn [mdt_loop]. assert (Pr : exists x, mdt_pair text a b = Ret x).
  { unfold mdt_pair. rewrite !mdt_able_val. pose proof (Hi a Pa) as [_ Q]. replace (stops a <=? Z.of_nat (List.length text)) with true by lia.
    destruct (isDateOnly a && isTimeOnly b); [cbn; eauto|]. destruct (isDateOnly b && isTimeOnly a); cbn; eauto. }
  destruct Pr as (x & Pr). rewrite Pr. cbn [bind]. apply mdt_pair_inv in Pr. destruct x as [[d t]|].
  - assert (M : exists m, mdt_merge text d t = Ret m /\ P m) by (destruct Pr as ([[-> ->]|[-> ->]] & _); auto). destruct M as (m & -> & Pm). cbn [bind].
    destruct (IH rest (match rest with x :: _ => x | [] => b end)) as (o & Eo & Fo); [cbn in *; lia|exact Fr|right; destruct Fr; assumption|].
    rewrite Eo. cbn [bind]. eexists. split; [reflexivity|]. constructor; assumption.
  - destruct (IH (b :: rest) b) as (o & Eo & Fo); [cbn in *; lia|exact F'|right; exact Pb|]. cbn [mdt_loop] in Eo. rewrite Eo. cbn [bind].
    eexists. split; [reflexivity|]. constructor; assumption.
Qed.
Lemma mdt_refine_all (P : result -> Prop) text : (forall a, P a -> inside text a) -> (forall a, P a -> P (res_copy a)) ->
  (forall d t, P d -> P t -> exists m, mdt_merge text d t = Ret m /\ P m) -> forall rs, Forall P rs -> exists out, mdt_refine rs text = Ret out /\ Forall P out.
Proof.
  intros Hi Hc Hm rs F. assert (F' : Forall P (map res_copy rs)) by (apply Forall_map; eapply Forall_impl; [|exact F]; exact Hc).
  unfold mdt_refine. destruct (map res_copy rs) as [|a [|b l]]; eauto.
  apply (mdt_loop_all P text Hi Hm _ _ _ (le_n _) F'). left. reflexivity.
Qed.
Lemma mdr_able_ret text a b : inside text a -> Z.of_nat (List.length text) < 2 ^ 32 -> exists x, mdr_able text a b = Ret x.
Proof.
  intros (A1 & A2) L. unfold mdr_able, substrZ, with_re. rewrite mdr_compile. unfold stops, starts, res_stop in *. pose proof (textLength_nonneg a).
  assert (U : u32 (getIndex a + textLength a) = getIndex a + textLength a) by (unfold u32; rewrite Z.mod_small; lia). rewrite U.
  destruct (Z.of_nat (List.length text) <? getIndex a + textLength a) eqn:E; [lia|]. cbn [bind]. eauto.
Qed.
Lemma mdr_loop_all (P Q : result -> Prop) text : Z.of_nat (List.length text) < 2 ^ 32 -> (forall a, P a -> inside text a) -> (forall a, P a -> Q a) ->
  (forall a b, P a -> P b -> exists m, mdr_merge text a b = Ret m /\ Q m) ->
  forall n l prev, (List.length l <= n)%nat -> Forall P l -> (isEmpty prev = true \/ Q prev) -> exists out, mdr_loop text prev l = Ret out /\ Forall Q out.
Proof.
  intros Lt Hi Hq Hm. assert (Last : forall curr, (isEmpty curr = true \/ Q curr) -> exists out, Ret (if isEmpty curr then [] else [curr]) = Ret out /\ Forall Q out).
  { intros curr [E|Pc]; [rewrite E; eexists; split; [reflexivity|constructor]|]. eexists; split; [reflexivity|]. destruct (isEmpty curr); repeat constructor; exact Pc. }
  induction n as [|n IH]; intros l prev Ln F Hc; [destruct l; [|cbn in Ln; lia]; cbn [mdr_loop]; auto|].
  destruct l as [|a [|b rest]]; [cbn [mdr_loop]; auto|cbn [mdr_loop]; auto|].
  inversion F as [|? ? Pa F']; subst. inversion F' as [|? ? Pb Fr]; subst. cbn [mdr_loop].
  assert (A : exists x, (if negb (has_end a) && negb (has_end b) then mdr_able text a b else Ret false) = Ret x).
  { destruct (negb (has_end a) && negb (has_end b)); [apply mdr_able_ret; auto|eauto]. }
  destruct A as (x & ->). cbn [bind]. destruct x.
  - destruct (Hm a b Pa Pb) as (m & -> & Qm). cbn [bind]. destruct (IH rest m) as (o & Eo & Fo); [cbn in *; lia|exact Fr|right; exact Qm|].
    rewrite Eo. cbn [bind]. eexists. split; [reflexivity|]. constructor; assumption.
  - destruct (IH (b :: rest) a) as (o & Eo & Fo); [cbn in *; lia|exact F'|right; apply Hq; exact Pa|]. cbn [mdr_loop] in Eo. rewrite Eo. cbn [bind].
    eexists. split; [reflexivity|]. constructor; [apply Hq; exact Pa|exact Fo].
Qed.
Lemma mdr_refine_all (P Q : result -> Prop) text : Z.of_nat (List.length text) < 2 ^ 32 -> (forall a, P a -> inside text a) -> (forall a, P a -> P (res_copy a)) -> (forall a, P a -> Q a) ->
  (forall a b, P a -> P b -> exists m, mdr_merge text a b = Ret m /\ Q m) -> forall rs, Forall P rs -> exists out, mdr_refine rs text = Ret out /\ Forall Q out.
Proof.
  intros Lt Hi Hc Hq Hm rs F. assert (F' : Forall P (map res_copy rs)) by (apply Forall_map; eapply Forall_impl; [|exact F]; exact Hc).
  unfold mdr_refine. destruct (map res_copy rs) as [|a [|b l]].
  - eauto.
  - eexists. split; [reflexivity|]. inversion F'; subst. constructor; [apply Hq; assumption|constructor].
  - apply (mdr_loop_all P Q text Lt Hi Hq Hm _ _ _ (le_n _) F'). left. reflexivity.
Qed.
Lemma overlap_all (P : result -> Prop) : (forall a, P a -> P (res_copy a)) -> forall rs, Forall P rs -> Forall P (overlap_refine rs).
Proof.
  intros Hc rs F. unfold overlap_refine. assert (F' : Forall P (map res_copy rs)) by (apply Forall_map; eapply Forall_impl; [|exact F]; exact Hc).
  assert (G : forall l prev, P prev -> Forall P l -> Forall P (overlap_loop prev l)).
  { induction l as [|x l IH]; intros prev Pp Fl; cbn [overlap_loop]; [destruct (isEmpty prev); repeat constructor; exact Pp|].
    inversion Fl; subst. unfold res_assign. destruct (getIndex x <? res_stop prev); [destruct (textLength prev <? textLength x); apply IH; auto|]. constructor; [apply Hc; exact Pp|]. apply IH; auto. }
  destruct (map res_copy rs) as [|a [|b l]]; [constructor|exact F'|]. inversion F' as [|? ? Pa Fl]; subst. apply G; auto.
Qed.
Lemma refiners_all (P Q : result -> Prop) text : Z.of_nat (List.length text) < 2 ^ 32 -> (forall a, P a -> inside text a) -> (forall a, P a -> P (res_copy a)) -> (forall a, P a -> Q a) ->
  (forall a, P a -> P (res_copy (tz_one tz_re text a))) ->
  (forall d t, P d -> P t -> exists m, mdt_merge text d t = Ret m /\ P m) -> (forall a b, P a -> P b -> exists m, mdr_merge text a b = Ret m /\ Q m) ->
  forall rs, Forall P rs -> exists out, run_refiners rs text = Ret out /\ Forall Q out.
Proof.
  intros Lt Hi Hc Hq Hz Hm Hr rs F. unfold run_refiners. cbv zeta. rewrite tz_refine_total. cbn [bind].
  destruct (mdt_refine_all P text Hi Hc Hm (map (fun x => res_copy (tz_one tz_re text (res_copy x))) (overlap_refine rs))) as (o & Eo & Fo).
  { apply Forall_map. eapply Forall_impl; [|apply overlap_all; [exact Hc|exact F]]. cbv beta. auto. }
  rewrite Eo. cbn [bind]. apply (mdr_refine_all P Q text Lt Hi Hc Hq Hr o Fo).
Qed.

(** ** Where the refined results lie *)
Lemma inside_zone text a : inside text a -> inside text (res_copy (tz_one tz_re text a)).
Proof.
  intros (I1 & I2). destruct (tz_one_spec text a) as [P1 P2]. cbv zeta in P1, P2. destruct (zone_of_dec text a) as [(abbr & k & Z)|N].
  - destruct (P2 abbr k Z) as (_ & Ei & Et & _). destruct Z as (_ & _ & (sp & lp & rp & E & _) & _). apply (f_equal (@List.length _)) in E. rewrite skipn_length, !app_length in E.
    unfold inside, starts, stops, textLength in *. rewrite Ei, Et. lia.
  - destruct (P1 N) as (_ & Ei & Et & _). unfold inside, starts, stops, textLength in *. rewrite Ei, Et. lia.
Qed.
Lemma merged_frame text d t m : mdt_merge text d t = Ret m -> r_start m = mergeDateTimeComponent (r_start d) (r_start t) /\ getIndex m = u32 (Z.min (starts d) (starts t)) /\
  r_text m = firstn (Z.to_nat (Z.min (Z.max (stops d) (stops t) - Z.min (starts d) (starts t)) (Z.of_nat (List.length text)))) (skipn (Z.to_nat (Z.min (starts d) (starts t))) text) /\
  has_end m = has_end d || has_end t.
Proof.
  unfold mdt_merge. intros H. apply bind_ret in H as (d1 & H1 & H). apply bind_ret in H as (tx & H2 & H). injection H as <-. apply substrZ_inv in H2 as [_ ->].
  pose proof (setTag_rest TMergeDateAndTime) as ST. pose proof (copy_tags_rest (res_copy t)) as CT.
  assert (De : has_end d1 = has_end d || has_end t).
  { unfold mdt_end in H1. change (has_end (res_copy d)) with (has_end d) in H1. change (has_end (res_copy t)) with (has_end t) in H1.
    destruct (has_end d || has_end t) eqn:Hd; [|injection H1 as <-; apply orb_false_iff in Hd as [Hd _]; exact Hd].
    apply bind_ret in H1 as (e & _ & H1). injection H1 as <-. reflexivity. }
  unfold getIndex, has_end. cbn [r_start r_index r_text r_hasend res_copy].
  rewrite (proj1 (proj2 (ST _))), (proj1 (proj2 (CT _))), (proj1 (proj2 (proj2 (ST _)))), (proj1 (proj2 (proj2 (CT _)))).
  rewrite (proj1 (proj2 (proj2 (proj2 (ST _))))), (proj1 (proj2 (proj2 (proj2 (CT _))))).
  rewrite (proj2 (proj2 (proj2 (proj2 (proj2 (ST _)))))), (proj2 (proj2 (proj2 (proj2 (proj2 (CT _)))))).
  split; [reflexivity|]. split; [reflexivity|]. split; [reflexivity|]. exact De.
Qed.
Lemma merged_inside text d t m : Z.of_nat (List.length text) < 2 ^ 32 -> inside text d -> inside text t -> mdt_merge text d t = Ret m -> inside text m.
Proof.
  intros L (D1 & D2) (T1 & T2) H. destruct (merged_frame text d t m H) as (_ & Ei & Et & _). pose proof (textLength_nonneg d). pose proof (textLength_nonneg t).
  unfold inside, starts, stops, textLength in *. rewrite Ei, Et, firstn_length, skipn_length. unfold u32. rewrite Z.mod_small by lia. lia.
Qed.

(** ** The refiners return (C81) *)
(** the start of the result is on the calendar *)
Definition dated (p : pc) : Prop := exists c, on_date p c /\ real_date c.
Lemma dated_date p : dated p -> exists u, pc_date p = Ret u.
Proof.
  intros (c & (E1 & E2 & E3) & R). unfold pc_date, ptime_from_tm. rewrite E1, E2, E3. pose proof R as [V Y]. pose proof (month_len_bounds (cy c) (cm c) (proj1 V)) as ML. destruct V as [Vm Vd]. unfold in_range_year in Y.
  rewrite !u16_small by lia. rewrite mk_date_real by exact R. cbn [bind]. eauto.
Qed.
Lemma merge_date d t : getYear (mergeDateTimeComponent d t) = getYear d /\ getMonth (mergeDateTimeComponent d t) = getMonth d /\ get_mDay (mergeDateTimeComponent d t) = get_mDay d /\ getTimeZoneOffset (mergeDateTimeComponent d t) = getTimeZoneOffset d.
Proof.
  unfold mergeDateTimeComponent. destruct (isCertain "hour" t); [destruct (isCertain "sec" t)|];
  unfold implyComponent; cbn [String.eqb Ascii.eqb Bool.eqb]; unfold imply_field;
  repeat match goal with |- context [if fst (known ?p ?f) then _ else _] => destruct (fst (known p f)) end; repeat split; reflexivity.
Qed.
Lemma merge_dated d t : dated d -> dated (mergeDateTimeComponent d t).
Proof. intros (c & (E1 & E2 & E3) & R). destruct (merge_date d t) as (M1 & M2 & M3 & _). exists c. split; [|exact R]. repeat split; congruence. Qed.
Lemma offset_dated k p p' : with_offset k p p' -> dated p -> dated p'.
Proof.
  intros (_ & W) (c & (E1 & E2 & E3) & R). exists c. split; [|exact R]. pose proof (proj1 (W Year ltac:(discriminate))) as W1. pose proof (proj1 (W Month ltac:(discriminate))) as W2. pose proof (proj1 (W MDay ltac:(discriminate))) as W3.
  cbn [api_get] in *. repeat split; congruence.
Qed.
Lemma zone_dated text a : dated (r_start a) -> dated (r_start (res_copy (tz_one tz_re text a))).
Proof.
  intros D. destruct (tz_one_spec text a) as [P1 P2]. cbv zeta in P1, P2. destruct (zone_of_dec text a) as [(abbr & k & Z)|N].
  - destruct (P2 abbr k Z) as (_ & _ & _ & _ & _ & W & _). destruct (keeps_offset a); [rewrite W; exact D|exact (offset_dated _ _ _ W D)].
  - destruct (P1 N) as (_ & _ & _ & -> & _). exact D.
Qed.
Lemma mdt_merge_ret text d t : dated (r_start d) -> starts d <= Z.of_nat (List.length text) -> exists m, mdt_merge text d t = Ret m.
Proof.
  intros D S1. unfold mdt_merge. assert (X : exists x, mdt_end (res_copy d) (res_copy t) (mergeDateTimeComponent (r_start (res_copy d)) (r_start (res_copy t))) = Ret x).
  { unfold mdt_end. destruct (has_end (res_copy d) || has_end (res_copy t)); [|eauto]. destruct (has_end (res_copy d)); [cbn [bind]; eauto|].
    destruct (dated_date (mergeDateTimeComponent (r_start (res_copy d)) (if has_end (res_copy t) then r_endc (res_copy t) else r_start (res_copy t)))) as (u & ->); [apply merge_dated; exact D|].
    destruct (dated_date (mergeDateTimeComponent (r_start (res_copy d)) (r_start (res_copy t)))) as (v & ->); [apply merge_dated; exact D|]. cbn [bind]. eauto. }
  destruct X as (x & ->). cbn [bind]. unfold substrZ. change (getIndex (res_copy d)) with (starts d). change (getIndex (res_copy t)) with (starts t).
  destruct (Z.of_nat (List.length text) <? Z.min (starts d) (starts t)) eqn:E; [lia|]. cbn [bind]. eauto.
Qed.
Lemma mdr_merge_ret text a b : dated (r_start a) -> dated (r_start b) -> starts a <= Z.of_nat (List.length text) -> exists m, mdr_merge text a b = Ret m.
Proof.
  intros Da Db S1. unfold mdr_merge. destruct (dated_date _ Da) as (u & Eu). destruct (dated_date _ Db) as (v & Ev). change (r_start (res_copy a)) with (r_start a). change (r_start (res_copy b)) with (r_start b).
  rewrite Eu, Ev. cbn [bind]. assert (G : forall b', exists m,
    (tx <- substrZ text (Z.min (getIndex (makeEndDateValid (with_end (r_start b') (res_copy a)))) (getIndex b')) (Z.max (res_stop (makeEndDateValid (with_end (r_start b') (res_copy a)))) (res_stop b') - Z.min (getIndex (makeEndDateValid (with_end (r_start b') (res_copy a)))) (getIndex b') + 1) ;;
      Ret (res_copy (setTag TMergeDateRange (copy_tags b' (setText tx (setIndex (Z.min (getIndex (makeEndDateValid (with_end (r_start b') (res_copy a)))) (getIndex b')) (makeEndDateValid (with_end (r_start b') (res_copy a))))))))) = Ret m).
  { intros b'. change (getIndex (makeEndDateValid (with_end (r_start b') (res_copy a)))) with (starts a). unfold substrZ.
    destruct (Z.of_nat (List.length text) <? Z.min (starts a) (getIndex b')) eqn:E; [lia|]. cbn [bind]. eauto. }
  destruct (v <? u); apply G.
Qed.
Theorem refiners_return : forall rs text, Z.of_nat (List.length text) < 2 ^ 32 -> Forall (fun r => inside text r /\ dated (r_start r)) rs ->
  exists out, run_refiners rs text = Ret out.
Proof.
  intros rs text L F. destruct (refiners_all (fun r => inside text r /\ dated (r_start r)) (fun _ => True) text L) with (rs := rs) as (o & E & _); try exact F; try tauto.
  - intros a (I & D). split; [apply inside_zone; exact I|apply zone_dated; exact D].
  - intros d t (Id & Dd) (It & Dt). destruct (mdt_merge_ret text d t Dd) as (m & E). { destruct Id. pose proof (textLength_nonneg d). unfold stops, starts in *. lia. }
    exists m. split; [exact E|]. split; [exact (merged_inside text d t m L Id It E)|]. destruct (merged_frame text d t m E) as (-> & _). apply merge_dated. exact Dd.
  - intros a b (Ia & Da) (Ib & Db). destruct (mdr_merge_ret text a b Da Db) as (m & E); [|eauto]. destruct Ia. pose proof (textLength_nonneg a). unfold stops, starts in *. lia.
  - eauto.
Qed.
Print Assumptions refiners_return.

(** ** ... and what they leave can be shown (C82) *)
Definition good (p : pc) : Prop :=
  exists c, on_date p c /\ real_date c /\ 1401 <= cy c <= 9998 /\ 0 <= getHour p < 48 /\ 0 <= getMinute p < 60 /\ 0 <= getSeconds p < 60.
Definition fair (text : bytes) (r : result) : Prop := inside text r /\ good (r_start r) /\ -1440 <= getTimeZoneOffset (r_start r) <= 1440 /\ has_end r = false.
Lemma good_dated p : good p -> dated p. Proof. intros (c & D & R & _). exists c. auto. Qed.
Lemma year_span c : valid c -> 1401 <= cy c <= 9998 -> LO + 365 <= dn_of c <= HI - 365.
Proof.
  intros V Y. pose proof (rd_le_year _ V) as [Q1 Q2]. pose proof (dby_le 1401 (cy c) ltac:(lia)) as Q3. pose proof (dby_le (cy c + 1) 9999 ltac:(lia)) as Q4.
  change (days_before_year 1401) with 511339 in Q3. change (days_before_year 9999) with 3651694 in Q4. unfold dn_of, JDN0, LO, HI. lia.
Qed.
Lemma show_ok u : LO * DAY <= u < (HI + 1) * DAY -> exists w, to_simple_string u = Ret w.
Proof.
  intros B. assert (D : LO <= pt_daynum u <= HI) by (unfold pt_daynum, DAY, HOUR, MINUTE, SEC in *; lia). destruct (dn_real _ D) as (c & R & E).
  unfold to_simple_string. rewrite E, ymd_real by exact R. cbn [bind]. unfold pt_tod. replace (0 <=? u) with true by (unfold LO, DAY, HOUR, MINUTE, SEC in *; lia). cbn [bind]. eauto.
Qed.
Lemma good_date p : good p -> exists u, pc_date p = Ret u /\ (LO + 365) * DAY <= u < (HI - 363) * DAY.
Proof.
  intros (c & (E1 & E2 & E3) & R & Y & Hh & Hm & Hs). unfold pc_date, ptime_from_tm. rewrite E1, E2, E3. pose proof (year_span c (proj1 R) Y) as B.
  pose proof R as [V Yr]. pose proof (month_len_bounds (cy c) (cm c) (proj1 V)) as ML. destruct V as [Vm Vd]. unfold in_range_year in Yr. rewrite !u16_small by lia. rewrite mk_date_real by exact R. cbn [bind].
  eexists. split; [reflexivity|]. unfold time_duration. replace ((getHour p <? 0) || (getMinute p <? 0) || (getSeconds p <? 0)) with false by lia. rewrite !Z.abs_eq by lia. unfold DAY, HOUR, MINUTE, SEC in *. lia.
Qed.
Lemma good_shown r : good (r_start r) -> -1440 <= getTimeZoneOffset (r_start r) <= 1440 -> (has_end r = true -> good (r_endc r)) -> renders r.
Proof.
  intros G Z E. destruct (good_date _ G) as (u & Eu & B). unfold renders, toDate. rewrite Eu. cbn [bind].
  destruct (show_ok (if tag_is TExtractTZ r then u + getTimeZoneOffset (r_start r) * MINUTE else u)) as (w & ->); [destruct (tag_is TExtractTZ r); unfold DAY, HOUR, MINUTE, SEC in *; lia|].
  cbn [bind]. unfold has_end in E. destruct (r_hasend r); [|eauto]. destruct (good_date _ (E eq_refl)) as (v & Ev & B'). rewrite Ev. cbn [bind].
  destruct (show_ok v) as (w' & ->); [unfold DAY, HOUR, MINUTE, SEC in *; lia|]. cbn [bind]. eauto.
Qed.
Lemma get_imply f g v p : pc_get f (imply_field g v p) = pc_get f p \/ (f = g /\ pc_get f (imply_field g v p) = v).
Proof.
  unfold imply_field. destruct (fst (known p g)) eqn:E; [auto|]. unfold pc_get. cbn [known implied]. unfold cput. destruct (String.eqb_spec f g) as [->|N]; [|auto].
  rewrite E. right. split; reflexivity.
Qed.
Lemma get_set f g v p : pc_get f (pc_set g v p) = pc_get f p \/ (f = g /\ pc_get f (pc_set g v p) = v).
Proof. unfold pc_get, pc_set. cbn [known implied]. unfold cput. destruct (String.eqb_spec f g) as [->|N]; [right; split; reflexivity|auto]. Qed.
Lemma merge_clock d t f : pc_get f (mergeDateTimeComponent d t) = pc_get f d \/ (In f ["hour"; "min"; "sec"] /\ pc_get f (mergeDateTimeComponent d t) = pc_get f t).
Proof.
  unfold mergeDateTimeComponent. change (implyComponent "sec") with (imply_field "sec"). change (implyComponent "min") with (imply_field "min"). change (implyComponent "hour") with (imply_field "hour").
  unfold setHour, setMinute, setSeconds, getHour, getMinute, getSeconds.
  assert (A : forall v p, pc_get f (pc_set "hour" v p) = pc_get f p \/ (f = "hour" /\ pc_get f (pc_set "hour" v p) = v)) by (intros; apply get_set).
  assert (St : forall g p, In g ["hour"; "min"; "sec"] -> (pc_get f p = pc_get f d \/ (In f ["hour"; "min"; "sec"] /\ pc_get f p = pc_get f t)) ->
    pc_get f (pc_set g (pc_get g t) p) = pc_get f d \/ (In f ["hour"; "min"; "sec"] /\ pc_get f (pc_set g (pc_get g t) p) = pc_get f t)).
  { intros g p Ig H. destruct (get_set f g (pc_get g t) p) as [-> | [-> ->]]; [exact H|]. right. split; [exact Ig|reflexivity]. }
  assert (Im : forall g p, In g ["hour"; "min"; "sec"] -> (pc_get f p = pc_get f d \/ (In f ["hour"; "min"; "sec"] /\ pc_get f p = pc_get f t)) ->
    pc_get f (imply_field g (pc_get g t) p) = pc_get f d \/ (In f ["hour"; "min"; "sec"] /\ pc_get f (imply_field g (pc_get g t) p) = pc_get f t)).
  { intros g p Ig H. destruct (get_imply f g (pc_get g t) p) as [-> | [-> ->]]; [exact H|]. right. split; [exact Ig|reflexivity]. }
  destruct (isCertain "hour" t); [destruct (isCertain "sec" t)|]; repeat (first [apply St|apply Im]; [cbn; tauto|]); left; reflexivity.
Qed.
Lemma merge_good d t : good d -> good t -> good (mergeDateTimeComponent d t).
Proof.
  intros (c & (E1 & E2 & E3) & R & Y & Hh & Hm & Hs) (c' & _ & _ & _ & Hh' & Hm' & Hs'). destruct (merge_date d t) as (M1 & M2 & M3 & _). exists c. split; [repeat split; congruence|]. split; [exact R|]. split; [exact Y|].
  unfold getHour, getMinute, getSeconds in *.
  destruct (merge_clock d t "hour") as [-> | [_ ->]], (merge_clock d t "min") as [-> | [_ ->]], (merge_clock d t "sec") as [-> | [_ ->]]; auto.
Qed.
Lemma offset_good k p p' : with_offset k p p' -> good p -> good p'.
Proof.
  intros (_ & W) (c & (E1 & E2 & E3) & R & Y & Hh & Hm & Hs). exists c.
  pose proof (proj1 (W Year ltac:(discriminate))) as W1. pose proof (proj1 (W Month ltac:(discriminate))) as W2. pose proof (proj1 (W MDay ltac:(discriminate))) as W3.
  pose proof (proj1 (W Hour ltac:(discriminate))) as W4. pose proof (proj1 (W Min ltac:(discriminate))) as W5. pose proof (proj1 (W Sec ltac:(discriminate))) as W6.
  cbn [api_get] in *. split; [repeat split; congruence|]. rewrite W4, W5, W6. auto.
Qed.
Lemma zones_small : forallb (fun x => (-1440 <=? snd x) && (snd x <=? 1440)) TIMEZONES = true. Proof. vm_compute. reflexivity. Qed.
Lemma fair_zone text a : fair text a -> fair text (res_copy (tz_one tz_re text a)).
Proof.
  intros (I & G & Zn & En). split; [apply inside_zone; exact I|]. destruct (tz_one_spec text a) as [P1 P2]. cbv zeta in P1, P2. destruct (zone_of_dec text a) as [(abbr & k & Z)|N].
  - destruct (P2 abbr k Z) as (_ & _ & _ & Ee & _ & W & _). rewrite Ee. destruct (keeps_offset a); [rewrite W; auto|]. split; [exact (offset_good _ _ _ W G)|]. split; [|exact En].
    destruct W as ((_ & W) & _). cbn [api_get] in W. rewrite W. destruct Z as (_ & _ & _ & Zk). unfold zone_minutes in Zk. pose proof (proj1 (forallb_forall _ _) zones_small _ Zk) as Q. cbn [snd] in Q. lia.
  - destruct (P1 N) as (_ & _ & _ & -> & -> & _). auto.
Qed.
Theorem refined_shown : forall rs text, Z.of_nat (List.length text) < 2 ^ 32 -> Forall (fair text) rs -> exists out, run_refiners rs text = Ret out /\ Forall renders out.
Proof.
  intros rs text L F. apply (refiners_all (fair text) renders text L) with (rs := rs); try exact F.
  - intros a (I & _). exact I.
  - intros a H. exact H.
  - intros a (I & G & Zn & En). apply good_shown; auto. congruence.
  - apply fair_zone.
  - intros d t (Id & Gd & Zd & Ed) (It & Gt & Zt & Et). destruct (mdt_merge_ret text d t (good_dated _ Gd)) as (m & E). { destruct Id. pose proof (textLength_nonneg d). unfold stops, starts in *. lia. }
    exists m. split; [exact E|]. destruct (merged_frame text d t m E) as (Es & _ & _ & Ee). split; [exact (merged_inside text d t m L Id It E)|]. rewrite Es, Ee, Ed, Et.
    split; [apply merge_good; assumption|]. split; [|reflexivity]. rewrite (proj2 (proj2 (proj2 (merge_date _ _)))). exact Zd.
  - intros a b (Ia & Ga & Za & Ea) (Ib & Gb & Zb & Eb). destruct (mdr_merge_ret text a b (good_dated _ Ga) (good_dated _ Gb)) as (m & E). { destruct Ia. pose proof (textLength_nonneg a). unfold stops, starts in *. lia. }
    exists m. split; [exact E|]. destruct (merged_ranged text a b m E) as (ta & tb & _ & _ & Q). cbv zeta in Q. destruct Q as (Es & _ & Ec & _). apply good_shown.
    + rewrite Es. exact Ga.
    + rewrite Es. exact Za.
    + intros _. rewrite Ec. destruct (tb <? ta); assumption.
Qed.
Print Assumptions refined_shown.
