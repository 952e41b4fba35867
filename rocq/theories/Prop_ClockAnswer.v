(** * A clock time in a sentence is answered (C94) *)
From Verif Require Import Base Regex RegexParse Calendar Components Utils Execute Spec View ParserSpec ClockSpec ClockTextSpec CalendarCycle CalendarFacts RegexFacts ResultFacts
  ExecuteFacts ParserRe MatchFacts LocateFacts ParserFacts ZoneFacts MergeFacts ClockFacts FoundFacts OverlapFacts Refiners Main
  P_CasualDate P_CasualTime P_DayOfWeek P_Deadline P_ISO P_MonthName P_MiddleEndian P_TimeAgo P_TimeLater P_TimeExpression P_Holiday P_Week
  Prop_Execute Prop_Casual Prop_Refine Prop_Ago Prop_Clock Prop_Tags Prop_Dates MainFacts Prop_Main Prop_Answers Prop_Format Prop_Sentence Prop_ClockText.
From Coq Require Import ZifyBool ZifyNat ZifyN Permutation.
Open Scope string_scope.
Open Scope list_scope.
Open Scope Z_scope.

(** what the refiners and the printing make of a lone result *)
Definition main_rest (r : result) (text : bytes) : outcome bytes := rs <- run_refiners [r] text ;; show rs.
Lemma main_dominant_gen e sortf text ref rs r : sane e -> is_sort sortf ->
  all_alone e parsers text ref = Ret rs -> In r rs ->
  (forall r', In r' rs -> r' = r \/ (getIndex r <= getIndex r' < getIndex r + textLength r /\ textLength r' < textLength r)) ->
  main e sortf gwords_init text ref = main_rest r (to_lower text).
Proof.
  intros He Hs H Ir D. rewrite main_alone, H. cbn [bind]. destruct (Hs rs) as [P B].
  assert (Cp : forall x, In x rs -> res_copy x = x).
  { intros x Ix. apply (all_alone_in _ _ _ _ _ H) in Ix as (p & l & Ip & Xp & Il). pose proof (execute_copies _ _ _ _ _ _ Xp) as E.
    clear - E Il. induction l as [|y l IH]; [contradiction|]. cbn [map] in E. injection E as E1 E2. destruct Il as [<-|Il]; auto. }
  assert (Ps : forall x, In x rs -> 0 < textLength x).
  { intros x Ix. apply (all_alone_in _ _ _ _ _ H) in Ix as (p & l & Ip & Xp & Il). apply in_all in Ip.
    pose proof (result_text _ _ _ _ _ _ _ He Ip Xp Il) as T. unfold textLength; destruct (r_text x); [congruence|cbn [List.length]; lia]. }
  assert (Po : forall x, In x rs -> 0 < textLength x /\ getIndex r <= getIndex x < getIndex r + textLength r /\ (x = r \/ textLength x < textLength r)).
  { intros x Ix. pose proof (Ps x Ix). pose proof (Ps r Ir). split; [assumption|]. destruct (D x Ix) as [->|[Q1 Q2]]; [split; [lia|auto]|auto]. }
  assert (E : overlap_refine (sortf rs) = [r]).
  { assert (F1 : Forall (fun x => res_copy x = x) (sortf rs)) by (apply Forall_forall; intros x Ix; apply Cp; eapply Permutation_in; [apply Permutation_sym; exact P|exact Ix]).
    assert (F2 : Forall (fun x => 0 < textLength x /\ getIndex r <= getIndex x < getIndex r + textLength r /\ (x = r \/ textLength x < textLength r)) (sortf rs))
      by (apply Forall_forall; intros x Ix; apply Po; eapply Permutation_in; [apply Permutation_sym; exact P|exact Ix]).
    pose proof (Permutation_in _ P Ir) as Is. destruct (sortf rs) as [|a l]; [contradiction|].
    inversion F2 as [|? ? (A1 & _) _]; subst. inversion F1 as [|? ? A2 F1']; subst.
    rewrite refine_loop by (apply filled_nonempty; intros E; unfold textLength in A1; rewrite E in A1; cbn in A1; lia).
    rewrite A2. assert (M : map res_copy l = l). { clear - F1'. induction F1' as [|x l Hx F IH]; [reflexivity|]. cbn [map]. rewrite Hx, IH. reflexivity. }
    rewrite M. assert (Dd : a = r \/ In r l) by (destruct Is as [->|Is]; auto). apply overlap_dominant; auto. }
  assert (E2 : run_refiners (sortf rs) (to_lower text) = run_refiners [r] (to_lower text)).
  { unfold run_refiners. rewrite E. cbn [overlap_refine map]. rewrite (Cp r Ir). reflexivity. }
  rewrite E2. reflexivity.
Qed.
Lemma rest_plain r text : no_zone text r -> main_rest r text = shown (toDate r).
Proof. intros Nz. destruct (refiners_single r text Nz) as (r' & E' & S'). unfold main_rest. rewrite E'. cbn [bind show]. rewrite (toDate_same _ _ S'). reflexivity. Qed.
Lemma same_value r r' f : same_result r r' -> api_get f (r_start r') = api_get f (r_start r).
Proof. intros (_ & _ & _ & E & _). rewrite E. reflexivity. Qed.
Lemma rest_zoned r text abbr k t t' : zoned text r abbr k -> is_certain TzOffset (r_start r) = false -> r_tags r TExtractTZ = None -> has_end r = false ->
  denotes (r_start r) t -> real_moment t -> seconds_after (60 * k) t t' -> real_date (mdate t') -> main_rest r text = shown (Ret (bs (written t'))).
Proof.
  intros Z N Tg En D R Sa R'. unfold main_rest, run_refiners. cbn [overlap_refine map]. rewrite tz_refine_total. cbn [bind map mdt_refine mdr_refine].
  assert (Z1 : zoned text (res_copy (res_copy r)) abbr k) by (apply (proj2 (zoned_copy _ _ _ _)), (proj2 (zoned_copy _ _ _ _)); exact Z).
  destruct (proj2 (tz_one_spec text (res_copy (res_copy r))) _ _ Z1) as (_ & _ & _ & He & _ & S & T). set (r' := res_copy (tz_one tz_re text (res_copy (res_copy r)))) in *.
  unfold keeps_offset in S. change (r_start (res_copy (res_copy r))) with (r_start r) in S. rewrite N in S. cbn [andb] in S. destruct S as [S1 S2].
  cbn [bind show]. unfold shown. cbn [bind].
  assert (Q : toDate r' = Ret (bs (written t'))).
  { apply toDate_shifted with (t := t); [|exact R|rewrite T; cbn [r_tags res_copy]; rewrite Tg; reflexivity|rewrite He; exact En|exact R'|destruct S1 as [_ S1]; cbn [api_get] in S1; rewrite S1; exact Sa].
    destruct D as (Y & M & Dd & Hh & Mi & Se).
    pose proof (S2 Year ltac:(discriminate)) as [E1 _]. pose proof (S2 Month ltac:(discriminate)) as [E2 _]. pose proof (S2 MDay ltac:(discriminate)) as [E3 _].
    pose proof (S2 Hour ltac:(discriminate)) as [E4 _]. pose proof (S2 Min ltac:(discriminate)) as [E5 _]. pose proof (S2 Sec ltac:(discriminate)) as [E6 _].
    cbn [api_get] in *. unfold denotes. rewrite E1, E2, E3, E4, E5, E6. auto 10. }
  rewrite !(toDate_same _ _ (same_copy _)). rewrite Q. reflexivity.
Qed.

(** the moment a clock time says on the day of [t] *)
Definition clock_moment (t : moment) (k : clock) (h mi : Z) : moment :=
  Moment (mdate t) (on_clock (ck_mark k) h) mi (match ck_sec k with [] => 0 | ss => decimal ss end).
(** the rest of the text is a known zone abbreviation *)
Definition zone_follows (post : bytes) : Prop := exists abbr k, zone_tail post abbr /\ ZoneFacts.zone_minutes abbr k.
Definition other_parsers : list parser := [casual_time; deadline; day_of_week; casual_date; middle_endian; time_later; month_name; time_ago; iso; holiday; week].
Lemma others q : In q parsers -> time_expression = q \/ In q other_parsers.
Proof. cbn. tauto. Qed.
Lemma others_in q : In q other_parsers -> In q parsers.
Proof. cbn. tauto. Qed.

Lemma at_time_denotes t k h mi p : seconds_fine k -> at_time t k (on_clock (ck_mark k) h) mi p -> denotes p (clock_moment t k h mi).
Proof.
  intros Sf (A1 & A2 & A3 & A4 & _). unfold clock_moment. apply denotes_implied; [exact A4|exact (certain_value _ _ _ A1)|exact (certain_value _ _ _ A2)|].
  unfold clock_seconds in A3. destruct (ck_sec k) as [|s0 ss]; [apply A3|]. exact (certain_value _ _ _ (proj1 A3)).
Qed.
Lemma digits_end w : digits w -> w <> [] -> exists a d, w = a ++ [d] /\ is_digit d = true.
Proof. intros D N. destruct (exists_last N) as (a & d & ->). exists a, d. split; [reflexivity|]. apply Forall_app in D as [_ D]. inversion D; assumption. Qed.
(** a written time ends in a letter, a digit or a full stop *)
Definition ender (c : ascii) : bool := is_word c || Ascii.eqb c ".".
Lemma ends_gen a b : (exists x d, b = x ++ [d] /\ ender d = true) -> exists x d, a ++ b = x ++ [d] /\ ender d = true.
Proof. intros (x & d & -> & H). exists (a ++ x), d. split; [apply app_assoc|exact H]. Qed.
Lemma digit_ender d : is_digit d = true -> ender d = true.
Proof. intros H. unfold ender, is_word. rewrite H. rewrite ?Bool.orb_true_r. reflexivity. Qed.
Lemma digits_ender w : digits w -> (1 <= List.length w)%nat -> exists x d, w = x ++ [d] /\ ender d = true.
Proof. intros D L. destruct (digits_end w D) as (a & d & E & H); [destruct w; [cbn in L; lia|discriminate]|]. exists a, d. split; [exact E|apply digit_ender; exact H]. Qed.
Lemma words_end c k q : clock_words c k q -> exists a d, c = a ++ [d] /\ ender d = true.
Proof.
  intros (p & -> & (h & Hh) & Mp & _ & Mk). destruct Mk as [[-> _]|(sp & w & -> & _ & I)].
  - rewrite app_nil_r. destruct Mp as [|a mm _ D L|a mm b ss f _ _ _ _ D L F].
    + rewrite app_nil_r. destruct Hh as [| |w D L]; [exists (bs "noo"), "n"%char; split; reflexivity|exists (bs "midnigh"), "t"%char; split; reflexivity|apply digits_ender; [exact D|lia]].
    + do 2 apply ends_gen. apply digits_ender; [exact D|lia].
    + do 4 apply ends_gen. destruct F as [->|(fr & -> & D2 & L2)]; [rewrite app_nil_r; apply digits_ender; [exact D|lia]|]. do 2 apply ends_gen. apply digits_ender; [exact D2|lia].
  - do 3 apply ends_gen. cbn in I. decompose [or] I; try contradiction; match goal with E : (_, _) = (_, _) |- _ => injection E as <- _ end;
    match goal with |- exists x d, ?l = x ++ [d] /\ ender d = true => exists (removelast l), (last l " "%char); split; vm_compute; reflexivity end.
Qed.
Lemma ender_plain d : ender d = true -> is_space d = false /\ d <> "("%char.
Proof.
  intros H. pose proof (forall_ascii (fun c => if ender c then negb (is_space c || Ascii.eqb c "(") else true) ltac:(vm_compute; reflexivity) d) as Q. cbv beta in Q. rewrite H in Q.
  apply Bool.negb_true_iff, Bool.orb_false_iff in Q as [Q1 Q2]. split; [exact Q1|]. intros ->. discriminate.
Qed.
Lemma letter_word c : is_letter c = true -> is_word c = true.
Proof. intros H. pose proof (forall_ascii (fun c => if is_letter c then is_word c else true) ltac:(vm_compute; reflexivity) c) as Q. cbv beta in Q. rewrite H in Q. exact Q. Qed.
(** the last character of the time and what follows it are no zone *)
Lemma no_zone_end d post abbr : ender d = true -> clock_stop post -> ~ zone_tail (d :: post) abbr.
Proof.
  intros Hd St (sp & lp & rp & E & B & Hl & Hr & [L _] & F). destruct (ender_plain d Hd) as [N1 N2].
  destruct sp as [|b sp]; [|cbn in E; injection E as -> _; inversion B; congruence]. destruct Hl as [->| ->]; [|cbn in E; injection E as -> _; congruence]. cbn [app] in E.
  destruct abbr as [|a1 [|a2 abbr]]; cbn in L; try lia. cbn in E. injection E as _ E. destruct post as [|x post]; [discriminate|]. injection E as -> _. destruct St as [W _]. inversion F as [|? ? _ F2]; subst. inversion F2 as [|? ? F3 _]; subst.
  rewrite (letter_word _ F3) in W. discriminate.
Qed.
Lemma zone_blank c t abbr : is_space c = true -> zone_tail t abbr -> zone_tail (c :: t) abbr.
Proof. intros H (sp & lp & rp & -> & B & Q). exists (c :: sp), lp, rp. split; [reflexivity|]. split; [constructor; assumption|exact Q]. Qed.
Lemma skip_tail (y c : bytes) n : skipn (List.length y + n) (y ++ c) = skipn n c.
Proof. rewrite skipn_app, skipn_all2 by lia. cbn [app]. f_equal. lia. Qed.
Lemma clock_no_zone text y lead intro c k q gap post rest res : text = (y ++ lead ++ intro) ++ c ++ post -> lead_sign lead -> post = gap ++ rest -> gap = gap_after post ->
  clock_words c k q -> clock_stop post -> getIndex res = Z.of_nat (List.length y) -> r_text res = intro ++ c ++ gap -> ~ zone_follows post -> no_zone text res.
Proof.
  intros Et Hl Ep Hg' Cw St Ix Tx Nz (abbr & kk & _ & _ & Z & Km).
  assert (Hg : gap = [] \/ gap = bs " ") by (rewrite Hg'; destruct post as [|b post]; [auto|]; cbn; destruct (Ascii.eqb b " "); auto). clear Hg'.
  assert (Es : stops res = Z.of_nat (List.length y + List.length (intro ++ c ++ gap))) by (unfold stops, textLength; rewrite Ix, Tx; lia).
  rewrite Es, Nat2Z.id in Z. rewrite Et, <- !app_assoc in Z. rewrite skip_tail in Z.
  assert (Q : zone_tail post abbr); [|apply Nz; exists abbr, kk; auto].
  destruct Hl as [->|(x & -> & _)].
  - replace ([] ++ intro ++ c ++ post) with ((intro ++ c ++ gap) ++ rest) in Z by (rewrite Ep, <- !app_assoc; reflexivity).
    replace (List.length (intro ++ c ++ gap)) with (List.length (intro ++ c ++ gap) + 0)%nat in Z by lia. rewrite skip_tail in Z. cbn [skipn] in Z. rewrite Ep. destruct Hg as [->| ->]; [exact Z|apply zone_blank; [reflexivity|exact Z]].
  - destruct Hg as [->| ->].
    + exfalso. destruct (words_end _ _ _ Cw) as (a & d & Ec & Hd). cbn [app] in Ep. subst rest. rewrite app_nil_r in Z.
      replace ([x] ++ intro ++ c ++ post) with ((x :: intro ++ a) ++ d :: post) in Z by (rewrite Ec; cbn; rewrite <- !app_assoc; reflexivity).
      replace (List.length (intro ++ c)) with (List.length (x :: intro ++ a) + 0)%nat in Z by (rewrite Ec; cbn [List.length]; rewrite !app_length; cbn; lia). rewrite skip_tail in Z. cbn [skipn] in Z. exact (no_zone_end d post abbr Hd St Z).
    + replace ([x] ++ intro ++ c ++ post) with ((x :: intro ++ c) ++ post) in Z by (cbn; rewrite <- !app_assoc; reflexivity).
      replace (List.length (intro ++ c ++ bs " ")) with (List.length (x :: intro ++ c) + 0)%nat in Z by (cbn [List.length]; rewrite !app_length; cbn; lia). rewrite skip_tail in Z. exact Z.
Qed.

(** ** Answers *)
(** nothing else is recognised as a clock time, and whatever the other parsers recognise begins inside the time and is shorter *)
Definition only_time (e : env) (text : bytes) (ref : ptime) (pre c : bytes) : Prop :=
  (exists r, x_res (execute e time_expression gwords_init text ref) = Ret [r]) /\
  forall p, In p other_parsers -> exists l, x_res (execute e p gwords_init text ref) = Ret l /\ forall r, In r l ->
     Z.of_nat (List.length pre) <= getIndex r < Z.of_nat (List.length pre) + Z.of_nat (List.length c) - 1 /\ textLength r < Z.of_nat (List.length c).
Lemma clock_real t us c k q h mi : real_instant t us -> clock_words c k q -> clock_time k h mi -> seconds_fine k -> on_clock (ck_mark k) h < 24 -> real_moment (clock_moment t k h mi).
Proof.
  intros H Cw Ct Sf H24. destruct Ct as (Ts & C1 & C2 & C3). pose proof (time_nonneg _ _ _ _ Ts) as [N1 N2]. pose proof (proj1 H) as Rt. unfold real_moment in *. unfold clock_moment. cbn [mdate mhour mmin msec].
  split; [apply Rt|]. assert (0 <= on_clock (ck_mark k) h) by (unfold on_clock; destruct (ck_mark k); try lia; destruct (h =? 12); lia).
  unfold seconds_fine in Sf. destruct (ck_sec k) as [|s0 ss] eqn:Es; [lia|]. destruct Sf as [Sf|Sf]; [discriminate Sf|].
  assert (0 <= decimal (s0 :: ss)). { destruct Cw as (p & _ & _ & Mp & _). rewrite Es in Mp. inversion Mp; subst. apply NumberFacts.decimal_bounds. assumption. } lia.
Qed.
Lemma clock_main e sortf text t us pre c k q post h mi : sane e -> is_sort sortf -> real_instant t us -> Z.of_nat (List.length text) < 2 ^ 32 ->
  to_lower text = pre ++ c ++ post -> clock_words c k q -> clear_before pre -> clear_after q post -> clock_time k h mi -> seconds_fine k -> only_time e text (ptime_of t us) pre c ->
  exists r y lead intro rest, main e sortf gwords_init text (ptime_of t us) = main_rest r (to_lower text) /\ x_res (execute e time_expression gwords_init text (ptime_of t us)) = Ret [r] /\
    pre = y ++ lead ++ intro /\ lead_sign lead /\ post = gap_after post ++ rest /\ getIndex r = Z.of_nat (List.length y) /\ r_text r = intro ++ c ++ gap_after post /\ has_end r = false /\
    at_time t k (on_clock (ck_mark k) h) mi (r_start r) /\ tag_is TTimeExpression r = true /\ r_tags r TExtractTZ = None.
Proof.
  intros He Hs H Hn E Cw Cb Ca Ct Sf [(r & Er) Al].
  destruct (clock_stands e gwords_init text t us [r] pre c k q post h mi He H Hn E Cw Cb Ca Ct Sf Er)
    as (res & y & lead & intro & gap & rest & [<-|[]] & Ey & Hl & Op & Ep & Hg & Ix & Tx & En & At & T1 & T2).
  assert (A : exists rs, all_alone e parsers text (ptime_of t us) = Ret rs).
  { assert (Q : exists rss, Forall2 (fun p l => alone e p text (ptime_of t us) = Ret l) parsers rss).
    { assert (Al' : forall p, In p parsers -> exists l, alone e p text (ptime_of t us) = Ret l).
      { intros p Ip. apply others in Ip as [<-|Ip]; [eexists; exact Er|]. destruct (Al p Ip) as (l & El & _). eexists; exact El. }
      revert Al'. clear. generalize parsers as ps. induction ps as [|p ps IH]; intros Al; [exists []; constructor|]. destruct (Al p (or_introl eq_refl)) as (l & El).
      destruct IH as [rss F]; [intros q' I'; apply Al; right; exact I'|]. exists (l :: rss). constructor; assumption. }
    destruct Q as [rss F]. exists (List.concat rss). apply all_alone_ret. eauto. }
  destruct A as [rs A]. assert (It : In time_expression parsers) by (cbn; tauto).
  assert (Ir : In r rs) by (apply (all_alone_in _ _ _ _ _ A); exists time_expression, [r]; split; [exact It|split; [exact Er|left; reflexivity]]).
  exists r, y, lead, intro, rest. rewrite <- Hg. split; [|auto 20]. apply (main_dominant_gen e sortf text (ptime_of t us) rs r He Hs A Ir).
  intros r' Ir'. apply (all_alone_in _ _ _ _ _ A) in Ir' as (p & lq & Ip & Eq & Il). apply others in Ip as [<-|Ip].
  - unfold alone in Eq. rewrite Er in Eq. apply RelativeFacts.ret_inj in Eq. subst lq. destruct Il as [<-|[]]. left. reflexivity.
  - destruct (Al p Ip) as (l & El & Bq). unfold alone in Eq. rewrite El in Eq. apply RelativeFacts.ret_inj in Eq. subst l. destruct (Bq r' Il) as [B1 B2]. right.
    unfold textLength in *. rewrite Ix, Tx, !app_length. rewrite Ey, !app_length in B1. destruct Hl as [->|(x & -> & _)]; cbn [List.length] in B1; lia.
Qed.

(** C94.  A text contains the clock time [c], standing clear as in C93 and not followed by a zone abbreviation that ends the text, and nothing else is recognised.
    Then the program prints the reference date at that time. *)
Theorem C94_clock_answer : forall e sortf text t us pre c k q post h mi, sane e -> is_sort sortf -> real_instant t us -> Z.of_nat (List.length text) < 2 ^ 32 ->
  to_lower text = pre ++ c ++ post -> clock_words c k q -> clear_before pre -> clear_after q post -> clock_time k h mi -> seconds_fine k -> on_clock (ck_mark k) h < 24 ->
  only_time e text (ptime_of t us) pre c -> ~ zone_follows post ->
  main e sortf gwords_init text (ptime_of t us) = Ret (line (bs (written (clock_moment t k h mi)))).
Proof.
  intros e sortf text t us pre c k q post h mi He Hs H Hn E Cw Cb Ca Ct Sf H24 On Nz.
  destruct (clock_main e sortf text t us pre c k q post h mi He Hs H Hn E Cw Cb Ca Ct Sf On) as (r & y & lead & intro & rest & M & Er & Ey & Hl & Ep & Ix & Tx & En & At & T1 & T2).
  assert (It : In time_expression parsers) by (cbn; tauto).
  rewrite M, rest_plain.
  - unfold shown. rewrite (toDate_start r (clock_moment t k h mi)); [reflexivity|apply at_time_denotes; assumption|eapply clock_real; eassumption| |exact En].
    apply (C73_no_refiner_tag e time_expression gwords_init text (ptime_of t us) [r] r TExtractTZ He (in_all _ It) Er (or_introl eq_refl)). left. reflexivity.
  - apply (clock_no_zone (to_lower text) y lead intro c k q (gap_after post) post rest); auto; [rewrite E, Ey; reflexivity|apply Ca].
Qed.
Print Assumptions C94_clock_answer.

(** C95.  If a space, a known zone abbreviation (possibly in parentheses) and nothing else follow the time, the program prints the moment
    moved by the minutes of the zone in the table, also over midnight. *)
Theorem C95_zone_answer : forall e sortf text t us pre c k q post abbr z h mi t', sane e -> is_sort sortf -> real_instant t us -> Z.of_nat (List.length text) < 2 ^ 32 ->
  to_lower text = pre ++ c ++ bs " " ++ post -> clock_words c k q -> clear_before pre -> clear_after q (bs " " ++ post) -> clock_time k h mi -> seconds_fine k -> on_clock (ck_mark k) h < 24 ->
  only_time e text (ptime_of t us) pre c -> zone_tail post abbr -> ZoneFacts.zone_minutes abbr z -> seconds_after (60 * z) (clock_moment t k h mi) t' -> real_date (mdate t') ->
  main e sortf gwords_init text (ptime_of t us) = Ret (line (bs (written t'))).
Proof.
  intros e sortf text t us pre c k q post abbr z h mi t' He Hs H Hn E Cw Cb Ca Ct Sf H24 On Zt Zm Sa R'.
  destruct (clock_main e sortf text t us pre c k q (bs " " ++ post) h mi He Hs H Hn E Cw Cb Ca Ct Sf On) as (r & y & lead & intro & rest & M & Er & Ey & Hl & Ep & Ix & Tx & En & At & T1 & T2).
  rewrite M. rewrite (rest_zoned r (to_lower text) abbr z (clock_moment t k h mi) t'); [reflexivity| | |exact T2|exact En|apply at_time_denotes; assumption|eapply clock_real; eassumption|exact Sa|exact R'].
  - split; [exact T1|]. assert (Es : stops r = Z.of_nat (List.length y + List.length (intro ++ c ++ bs " "))) by (unfold stops, textLength; rewrite Ix, Tx; change (gap_after (bs " " ++ post)) with (bs " "); lia).
    rewrite Es. split; [rewrite E, Ey, !app_length; destruct Hl as [->|(x & -> & _)]; cbn [List.length]; lia|]. split; [|exact Zm]. rewrite Nat2Z.id, E, Ey, <- !app_assoc, skip_tail.
    destruct Hl as [->|(x & -> & _)].
    + replace ([] ++ intro ++ c ++ bs " " ++ post) with ((intro ++ c ++ bs " ") ++ post) by (rewrite <- !app_assoc; reflexivity).
      replace (List.length (intro ++ c ++ bs " ")) with (List.length (intro ++ c ++ bs " ") + 0)%nat by lia. rewrite skip_tail. exact Zt.
    + replace ([x] ++ intro ++ c ++ bs " " ++ post) with ((x :: intro ++ c) ++ bs " " ++ post) by (cbn; rewrite <- !app_assoc; reflexivity).
      replace (List.length (intro ++ c ++ bs " ")) with (List.length (x :: intro ++ c) + 0)%nat by (cbn [List.length]; rewrite !app_length; cbn; lia). rewrite skip_tail. apply zone_blank; [reflexivity|exact Zt].
  - destruct At as (_ & _ & _ & _ & U). unfold untouched in U. inversion U as [|? ? _ U1]; subst. inversion U1 as [|? ? U2 _]; subst. apply U2.
Qed.
Print Assumptions C95_zone_answer.

(** both happen *)
Definition nothing_else (e : env) (text : bytes) (ref : ptime) (pre c : bytes) : bool :=
  match x_res (execute e time_expression gwords_init text ref) with Ret [_] => true | _ => false end &&
  forallb (fun p => match x_res (execute e p gwords_init text ref) with
    | Ret l => forallb (fun r => (Z.of_nat (List.length pre) <=? getIndex r) && (getIndex r <? Z.of_nat (List.length pre) + Z.of_nat (List.length c) - 1) && (textLength r <? Z.of_nat (List.length c))) l
    | _ => false end) other_parsers.
Lemma nothing_else_ok e text ref pre c : nothing_else e text ref pre c = true -> only_time e text ref pre c.
Proof.
  unfold nothing_else, only_time. generalize other_parsers. intros ps H. apply andb_prop in H as [H1 H2]. split.
  - destruct (x_res (execute e time_expression gwords_init text ref)) as [[|r [|]]| | | |]; try discriminate. eauto.
  - intros p Ip. rewrite forallb_forall in H2. specialize (H2 p Ip). destruct (x_res (execute e p gwords_init text ref)) as [l| | | |]; try discriminate. exists l. split; [reflexivity|]. intros r Ir. rewrite forallb_forall in H2. specialize (H2 r Ir). lia.
Qed.
Lemma case_words : clock_words (bs "5:30 pm") (Clock (bs "5") (bs "30") [] Pm) (bs " pm").
Proof.
  exists (bs ":30"). split; [reflexivity|]. split; [exists 5; apply (hs_digits (bs "5")); [repeat constructor|cbn; lia]|]. split; [apply (mp_minutes _ (bs ":") (bs "30")); [right; left; reflexivity|repeat constructor|cbn; lia]|].
  split; [cbn; lia|]. right. exists (bs " "), "pm". split; [reflexivity|]. split; [repeat constructor|cbn; tauto].
Qed.
Example C94_case : let t := Moment (Cal 2024 2 29) 5 6 7 in let k := Clock (bs "5") (bs "30") [] Pm in let text := bs "Please meet me at 5:30 PM, thanks" in
  real_instant t 1 /\ to_lower text = bs "please meet me at " ++ bs "5:30 pm" ++ bs ", thanks" /\ clock_words (bs "5:30 pm") k (bs " pm") /\ clear_before (bs "please meet me at ") /\ clear_after (bs " pm") (bs ", thanks") /\
  clock_time k 5 30 /\ seconds_fine k /\ nothing_else strict_env text (ptime_of t 1) (bs "please meet me at ") (bs "5:30 pm") = true /\ ~ zone_follows (bs ", thanks") /\
  main strict_env sort_stable gwords_init text (ptime_of t 1) = Ret (line (bs "2024-Feb-29 17:30:00")).
Proof.
  cbv zeta. split; [inst|]. split; [reflexivity|]. split; [exact case_words|].
  split; [apply (clear_letter (bs "please meet me a") "t"%char (bs " ")); [repeat constructor|discriminate|reflexivity|cbn; intuition discriminate]|].
  split; [apply (clear_sign (bs " pm") ","%char (bs " thanks")); [discriminate|reflexivity|reflexivity|cbn; intuition discriminate]|].
  split; [split; [apply (ts_minutes (bs "5") (bs "30") 5); [apply (hs_digits (bs "5")); [repeat constructor|cbn; lia]|repeat constructor|cbn; lia]|]; cbn; lia|].
  split; [left; reflexivity|]. split; [vm_compute; reflexivity|]. split; [|vm_compute; reflexivity].
  intros (abbr & z & (sp & lp & rp & E & B & Hl & _ & [L _] & F) & _). destruct sp as [|b sp]; [|cbn in E; injection E as <- _; inversion B; discriminate].
  destruct Hl as [->| ->]; [|discriminate]. destruct abbr as [|a abbr]; [cbn in L; lia|]. cbn in E. injection E as <- _. inversion F; discriminate.
Qed.
Example C95_case : let t := Moment (Cal 2024 2 29) 5 6 7 in let k := Clock (bs "5") (bs "30") [] Pm in let text := bs "Please meet me at 5:30 PM (EST)" in
  real_instant t 1 /\ to_lower text = bs "please meet me at " ++ bs "5:30 pm" ++ bs " " ++ bs "(est)" /\ clear_after (bs " pm") (bs " " ++ bs "(est)") /\
  nothing_else strict_env text (ptime_of t 1) (bs "please meet me at ") (bs "5:30 pm") = true /\ zone_tail (bs "(est)") (bs "est") /\ ZoneFacts.zone_minutes (bs "est") (-300) /\
  seconds_after (60 * -300) (clock_moment t k 5 30) (Moment (Cal 2024 2 29) 12 30 0) /\
  main strict_env sort_stable gwords_init text (ptime_of t 1) = Ret (line (bs "2024-Feb-29 12:30:00")).
Proof.
  cbv zeta. split; [inst|]. split; [reflexivity|]. split.
  { split; [cbn; repeat split; discriminate || (intros [X|X]; discriminate X)|]. split; [|discriminate]. intros (s1 & w & s2 & d & r & E & B & Tw & _). destruct s1 as [|b1 [|b2 s1]].
    - cbn [app] in E. unfold to_word in Tw. cbn [In] in Tw. decompose [or] Tw; try contradiction; subst w; discriminate E.
    - cbn in E. injection E as <- E. unfold to_word in Tw. cbn [In] in Tw. decompose [or] Tw; try contradiction; subst w; discriminate E.
    - cbn in E. injection E as <- <- _. inversion B as [|? ? _ B2]; subst. inversion B2; discriminate. }
  split; [vm_compute; reflexivity|]. split; [exists [], (bs "("), (bs ")"); repeat split; auto; try (cbn; lia); repeat constructor|]. split; [vm_compute; tauto|]. split; [vm_compute; intuition congruence|vm_compute; reflexivity].
Qed.
