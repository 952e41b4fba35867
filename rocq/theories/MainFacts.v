(** * MainFacts: the whole program, for every text *)
From Verif Require Import Base Regex RegexParse Calendar Components Utils Execute Spec View ParserSpec CalendarFacts RegexFacts ResultFacts
  ExecuteFacts ParserRe MatchFacts FuelFacts LocateFacts HistoryFacts ParserFacts MonthFacts ClockSpec ClockFacts OverlapFacts ZoneFacts MergeFacts Refiners Main.
From Verif Require Import P_CasualDate P_CasualTime P_DayOfWeek P_Deadline P_ISO P_MonthName P_MiddleEndian
  P_TimeAgo P_TimeLater P_TimeExpression P_Holiday P_Week Prop_Execute Prop_Refine.
From Coq Require Import ZifyBool ZifyNat Sorting.Sorted Sorting.Permutation.
Open Scope string_scope.
Open Scope list_scope.
Open Scope Z_scope.

(** ** The text of a result is never empty *)
Lemma months_nonempty w : lang true mn_months w -> w <> [].
Proof. intros L ->. apply min_len_ok in L. vm_compute in L. lia. Qed.
Lemma result_text e p g text ref rs res : sane e -> In p all_parsers -> x_res (execute e p g text ref) = Ret rs -> In res rs -> r_text res <> [].
Proof.
  intros He Ip X I.
  destruct (compile (p_pattern p)) as [r|] eqn:C; [|unfold execute in X; rewrite C in X; injection X as <-; contradiction].
  destruct (results_from _ _ _ _ _ _ _ _ He Ip C X I) as (off & m & g0 & g1 & r0 & Sm & L & Xr & _ & ->). cbn [r_text res_copy].
  assert (D : p = month_name \/ p = time_expression \/ (p <> month_name /\ p <> time_expression)).
  { clear - Ip. cbn in Ip. repeat destruct Ip as [<-|Ip]; try contradiction; auto; right; right; split; intros E; apply (f_equal p_pattern) in E; vm_compute in E; discriminate. }
  destruct D as [-> | [-> | [N1 N2]]].
  - destruct (locates_month_name _ _ _ _ _ _ _ _ _ C Sm Xr) as [_ ->]. rewrite month_name_compile in C. apply some_inj in C. subst r.
    destruct (month_name_match _ _ L Sm) as (pre & post & w & sp & tail & E & _ & Em & G2 & Lw & _).
    unfold after_lead. rewrite Em, skipn_app, skipn_all, Nat.sub_diag. cbn. apply months_nonempty in Lw. destruct w; [congruence|discriminate].
  - destruct (locates_time_expression _ _ _ _ _ _ _ _ _ C Sm Xr) as [_ ->]. rewrite time_expression_compile in C. apply some_inj in C. subst r.
    destruct (clock_match _ _ Sm L) as (intro & c1 & k & gap & rest & Em & Op & (a & b & -> & (h & Hh) & _) & _).
    unfold after_lead. rewrite Em, skipn_app, skipn_all, Nat.sub_diag. cbn [app skipn].
    destruct (ck_hour k) as [|c w] eqn:Ek; [|destruct intro; discriminate]. exfalso. inversion Hh; subst. cbn in *. lia.
  - destruct (locates_whole p Ip N1 N2 _ _ _ _ _ _ _ _ _ C Sm Xr) as [_ ->]. unfold whole. cbn [skipn].
    destruct (search_bounds _ _ _ (nonempty_all p Ip r C) Sm) as [_ B]. destruct (m_str m); [cbn in B; lia|discriminate].
Qed.

Lemma in_all p : In p parsers -> In p all_parsers.
Proof. unfold all_parsers. intros I. apply in_or_app. auto. Qed.

(** ** In the program each parser works as if it were alone *)
Definition alone (e : env) (p : parser) (text : bytes) (ref : ptime) : outcome (list result) := x_res (execute e p gwords_init text ref).

Lemma ret_inv {A} (a b : A) : Ret a = Ret b -> a = b. Proof. congruence. Qed.
Lemma exec_loop_copies e p r ref text : forall fuel g rem acc rs, Forall (fun x => res_copy x = x) acc ->
  snd (exec_loop fuel e p r g text rem ref acc) = Ret rs -> Forall (fun x => res_copy x = x) rs.
Proof.
  induction fuel as [|fuel IH]; intros g rem acc rs F; cbn [exec_loop]; [discriminate|].
  destruct (search true r rem) as [m|]; [|cbn [snd]; intros H; apply ret_inv in H; subst rs; apply Forall_rev; exact F].
  destruct (p_extract _ _ _ _ _ _ _) as [g' [res| | | |]]; try discriminate.
  destruct (bind _ _) as [rem'| | | |]; try discriminate. apply IH.
  destruct (hasPossibleDates res); [constructor; [apply res_copy_idem|exact F]|exact F].
Qed.
Lemma execute_copies e p g text ref rs : x_res (execute e p g text ref) = Ret rs -> map res_copy rs = rs.
Proof.
  intros H. assert (F : Forall (fun x => res_copy x = x) rs).
  { unfold execute in H. destruct (compile _) as [r|]; [|cbn [x_res] in H; apply ret_inv in H; subst rs; constructor].
    pose proof (exec_loop_copies e p r ref (to_lower text) (S (List.length (to_lower text))) g (to_lower text) [] rs (Forall_nil _)) as K.
    destruct (exec_loop _ _ _ _ _ _ _ _ _) as [g' o]. apply K. exact H. }
  clear H. induction F as [|x l Hx F IH]; [reflexivity|]. cbn [map]. rewrite Hx, IH. reflexivity.
Qed.

(** every parser on its own, one after the other *)
Fixpoint all_alone (e : env) (ps : list parser) (text : bytes) (ref : ptime) : outcome (list result) :=
  match ps with
  | [] => Ret []
  | p :: ps' => rs <- alone e p text ref ;; more <- all_alone e ps' text ref ;; Ret (rs ++ more)
  end.

Definition steady (p : parser) : Prop := forall e g text ref, x_words (execute e p g text ref) = g.
Lemma steady_parsers : exists ps, parsers = ps ++ [week] /\ Forall steady ps.
Proof.
  exists [casual_time; deadline; day_of_week; casual_date; middle_endian; time_later; month_name; time_ago; time_expression; iso; holiday].
  split; [reflexivity|]. repeat constructor; intros e g text ref;
    unfold casual_time, deadline, day_of_week, casual_date, middle_endian, time_later, month_name, time_ago, time_expression, iso, holiday; apply pure_words.
Qed.
Lemma all_alone_lower e ps text ref : all_alone e ps (to_lower text) ref = all_alone e ps text ref.
Proof. induction ps as [|p ps IH]; [reflexivity|]. cbn [all_alone]. unfold alone. rewrite (execute_case e p gwords_init _ text ref (to_lower_idem _)), IH. reflexivity. Qed.
Lemma run_alone e q ref : forall ps text acc, Forall steady ps ->
  snd (run_parsers e (ps ++ [q]) gwords_init text ref acc) = (more <- all_alone e (ps ++ [q]) text ref ;; Ret (acc ++ more)) /\
  snd (fst (run_parsers e (ps ++ [q]) gwords_init text ref acc)) = to_lower text.
Proof.
  induction ps as [|p ps IH]; intros text acc F.
  - cbn [app run_parsers all_alone]. unfold alone. pose proof (execute_copies e q gwords_init text ref) as K.
    rewrite execute_text. destruct (x_res (execute e q gwords_init text ref)) as [rs| | | |]; cbn [bind]; try (split; reflexivity).
    split; [|reflexivity]. cbn [snd]. rewrite (K rs eq_refl), app_nil_r. reflexivity.
  - inversion F as [|? ? Fp F']; subst. cbn [app run_parsers all_alone]. unfold alone. pose proof (execute_copies e p gwords_init text ref) as K.
    rewrite execute_text, Fp. destruct (x_res (execute e p gwords_init text ref)) as [rs| | | |]; cbn [bind]; try (split; reflexivity).
    rewrite (K rs eq_refl). destruct (IH (to_lower text) (acc ++ rs) F') as [E1 E2]. rewrite E1, E2, all_alone_lower, to_lower_idem.
    split; [|reflexivity]. destruct (all_alone e (ps ++ [q]) text ref); cbn [bind]; try reflexivity. rewrite app_assoc. reflexivity.
Qed.
Lemma main_alone e sortf text ref : main e sortf gwords_init text ref =
  (rs <- all_alone e parsers text ref ;; rs' <- run_refiners (sortf rs) (to_lower text) ;; show rs').
Proof.
  unfold main. destruct steady_parsers as (ps & E & F). rewrite E. destruct (run_alone e week ref ps text [] F) as [E1 E2].
  destruct (run_parsers _ _ _ _ _ _) as [[g' s'] o]. cbn [fst snd] in E1, E2. subst o s'.
  destruct (all_alone e (ps ++ [week]) text ref); reflexivity.
Qed.
Lemma all_alone_ret e text ref : forall ps rs, all_alone e ps text ref = Ret rs <->
  exists rss, Forall2 (fun p l => alone e p text ref = Ret l) ps rss /\ rs = List.concat rss.
Proof.
  induction ps as [|p ps IH]; intros rs; cbn [all_alone].
  - split; [intros H; apply ret_inv in H; subst; exists []; split; constructor|]. intros (rss & F & ->). inversion F. reflexivity.
  - split.
    + intros H. apply bind_ret in H as (l & E & H). apply bind_ret in H as (more & E2 & H). apply ret_inv in H. subst rs.
      apply IH in E2 as (rss & F & ->). exists (l :: rss). split; [constructor; assumption|reflexivity].
    + intros (rss & F & ->). inversion F as [|? l ? rss' H F']; subst. rewrite H. cbn [bind]. rewrite (proj2 (IH (List.concat rss')) (ex_intro _ rss' (conj F' eq_refl))).
      reflexivity.
Qed.
Lemma all_alone_in e text ref rs r : all_alone e parsers text ref = Ret rs -> In r rs <-> exists p l, In p parsers /\ alone e p text ref = Ret l /\ In r l.
Proof.
  intros H. apply all_alone_ret in H as (rss & F & ->). induction F as [|p l ps rss E F IH]; cbn [List.concat].
  - split; [contradiction|]. intros (p & l & [] & _).
  - rewrite in_app_iff, IH. split.
    + intros [I|(q & k & Iq & Eq & Ik)]; [exists p, l; cbn; auto|exists q, k; cbn; auto].
    + intros (q & k & [<-|Iq] & Eq & Ik); [rewrite E in Eq; apply ret_inv in Eq; subst; auto|right; exists q, k; auto].
Qed.

(** ** The refiners keep at least one result *)
(** what is known of std::sort on the index *)
Definition is_sort (sortf : list result -> list result) : Prop := forall l, Permutation l (sortf l) /\ by_index (sortf l).
Lemma filled_nonempty r : r_text r <> [] -> isEmpty r = false.
Proof. unfold isEmpty. destruct (r_text r); [congruence|]. rewrite andb_false_r. reflexivity. Qed.

Lemma mdt_loop_nonempty text c a b l out : mdt_loop text c (a :: b :: l) = Ret out -> out <> [].
Proof.
  cbn [mdt_loop]. intros H. apply bind_ret in H as (pr & _ & H). destruct pr as [[d t]|].
  - apply bind_ret in H as (m & _ & H). apply bind_ret in H as (o & _ & H). apply ret_inv in H. subst. discriminate.
  - apply bind_ret in H as (o & _ & H). apply ret_inv in H. subst. discriminate.
Qed.
Lemma mdt_nonempty rs text out : rs <> [] -> mdt_refine rs text = Ret out -> out <> [].
Proof.
  intros N. unfold mdt_refine. destruct rs as [|a [|b l]]; [congruence| |]; cbn [map].
  - intros H. apply ret_inv in H. subst. discriminate.
  - apply mdt_loop_nonempty.
Qed.
Lemma mdr_loop_nonempty text c a b l out : mdr_loop text c (a :: b :: l) = Ret out -> out <> [].
Proof.
  cbn [mdr_loop]. intros H. apply bind_ret in H as (pr & _ & H). destruct pr.
  - apply bind_ret in H as (m & _ & H). apply bind_ret in H as (o & _ & H). apply ret_inv in H. subst. discriminate.
  - apply bind_ret in H as (o & _ & H). apply ret_inv in H. subst. discriminate.
Qed.
Lemma mdr_nonempty rs text out : rs <> [] -> mdr_refine rs text = Ret out -> out <> [].
Proof.
  intros N. unfold mdr_refine. destruct rs as [|a [|b l]]; [congruence| |]; cbn [map].
  - intros H. apply ret_inv in H. subst. discriminate.
  - apply mdr_loop_nonempty.
Qed.
Lemma refiners_nonempty rs text out : by_index rs -> nonempty_results rs -> rs <> [] -> run_refiners rs text = Ret out -> out <> [].
Proof.
  intros S N Ne H. unfold run_refiners in H. destruct (C46_overlap_removal rs S N) as (_ & _ & _ & K & _). specialize (K Ne).
  rewrite tz_refine_total in H. cbn [bind] in H. apply bind_ret in H as (r3 & H3 & H). eapply mdr_nonempty; [|exact H]. eapply mdt_nonempty; [|exact H3].
  destruct (overlap_refine rs); [congruence|discriminate].
Qed.
Lemma refiners_nil text : run_refiners [] text = Ret [].
Proof. unfold run_refiners. cbn [overlap_refine map]. rewrite tz_refine_total. reflexivity. Qed.
Lemma sorted_nonempty e text ref rs sortf : sane e -> is_sort sortf -> all_alone e parsers text ref = Ret rs -> nonempty_results (sortf rs).
Proof.
  intros He Hs H. apply Forall_forall. intros r I. destruct (Hs rs) as [P _]. apply filled_nonempty.
  apply (Permutation_in _ (Permutation_sym P)) in I. apply (all_alone_in _ _ _ _ _ H) in I as (p & l & Ip & Xp & Il).
  eapply result_text; [exact He|apply in_all; exact Ip|exact Xp|exact Il].
Qed.

(** ** A result that spans the whole text and is longer than every other one wins *)
Lemma overlap_wins r : 0 < textLength r -> getIndex r = 0 -> res_copy r = r -> forall l prev,
  by_index (prev :: l) -> Forall (fun x => res_copy x = x) (prev :: l) ->
  Forall (fun x => 0 < textLength x /\ 0 <= getIndex x < textLength r /\ (x = r \/ textLength x < textLength r)) (prev :: l) ->
  prev = r \/ In r l -> overlap_loop prev l = [r].
Proof.
  intros Lr Ir Cr. assert (Nr : isEmpty r = false) by (apply filled_nonempty; intros E; unfold textLength in Lr; rewrite E in Lr; cbn in Lr; lia).
  induction l as [|x l IH]; intros prev B C F D; cbn [overlap_loop].
  - destruct D as [->|[]]. rewrite Nr. reflexivity.
  - inversion F as [|? ? (P1 & P2 & P3) F']; subst. inversion F' as [|? ? (X1 & X2 & X3) F2]; subst.
    inversion C as [|? ? Cp C']; subst. inversion C' as [|? ? Cx C2]; subst. unfold res_assign. rewrite Cx.
    pose proof (by_index_all _ _ B) as A. pose proof (by_index_tl _ _ B) as Bt. pose proof (by_index_all _ _ Bt) as Ax. pose proof (by_index_tl _ _ Bt) as Bl.
    assert (Bp : by_index (prev :: l)) by (apply by_index_cons; [exact Bl|inversion A; assumption]).
    assert (K : prev = r \/ (prev <> r /\ getIndex x = 0 /\ getIndex prev = 0)).
    { destruct D as [->|I]; [left; reflexivity|]. destruct P3 as [->|P3]; [left; reflexivity|]. right. split; [intros ->; lia|].
      rewrite Forall_forall in A. specialize (A r I). unfold starts in A. rewrite Ir in A. split; [|lia].
      destruct I as [->|I]; [exact Ir|]. rewrite Forall_forall in Ax. specialize (Ax r I). unfold starts in Ax. lia. }
    destruct K as [->|(N & Xi & Pi)].
    + replace (getIndex x <? res_stop r) with true by (unfold res_stop; lia). replace (textLength r <? textLength x) with false by (destruct X3 as [->|X3]; lia).
      apply IH; [exact Bp|constructor; assumption|constructor; [auto|exact F2]|left; reflexivity].
    + replace (getIndex x <? res_stop prev) with true by (unfold res_stop; lia).
      destruct D as [->|[->|I]]; [congruence| |].
      * replace (textLength prev <? textLength r) with true by (destruct P3; [congruence|lia]). apply IH; auto.
      * destruct (textLength prev <? textLength x); [apply IH; auto|]. apply IH; [exact Bp|constructor; assumption|constructor; [auto|exact F2]|right; exact I].
Qed.

Lemma toDate_same r r' : same_result r r' -> toDate r' = toDate r.
Proof.
  intros (_ & _ & _ & Es & He & Ee & T). unfold toDate. rewrite Es, T. unfold has_end in *. rewrite He.
  destruct (r_hasend r); [rewrite (Ee eq_refl)|]; reflexivity.
Qed.
Lemma same_trans r r' r'' : same_result r r' -> same_result r' r'' -> same_result r r''.
Proof.
  intros (A1 & A2 & A3 & A4 & A5 & A6 & A7) (B1 & B2 & B3 & B4 & B5 & B6 & B7). unfold same_result.
  rewrite B1, B2, B3, B4, B5. repeat split; auto. 
  - intros H. rewrite B6 by congruence. auto.
  - intros m. rewrite B7. auto.
Qed.
Lemma same_copy r : same_result r (res_copy r).
Proof. destruct (copy_preserves r) as (A1 & A2 & A3 & A4 & A5 & A6 & A7 & _). unfold same_result. repeat split; auto. intros m. rewrite !tag_is_tags, A4. reflexivity. Qed.
Definition no_zone (text : bytes) (r : result) : Prop := ~ exists abbr k, zoned text r abbr k.
Lemma refiners_single r text : no_zone text r -> exists r', run_refiners [r] text = Ret [r'] /\ same_result r r'.
Proof.
  intros N. unfold run_refiners. cbn [overlap_refine map]. rewrite tz_refine_total. cbn [bind map mdt_refine mdr_refine].
  eexists. split; [reflexivity|].
  assert (N1 : ~ exists abbr k, zoned text (res_copy (res_copy r)) abbr k).
  { intros (a & k & Z). apply N. exists a, k. apply (proj1 (zoned_copy _ _ _ _)), (proj1 (zoned_copy _ _ _ _)). exact Z. }
  pose proof (proj1 (tz_one_spec text (res_copy (res_copy r))) N1) as T.
  eapply same_trans; [|apply same_copy]. eapply same_trans; [|apply same_copy]. eapply same_trans; [|exact T]. eapply same_trans; apply same_copy.
Qed.
Lemma whole_no_zone text r : getIndex r + textLength r = Z.of_nat (List.length text) -> no_zone text r.
Proof.
  intros E (a & k & _ & _ & (x & y & z & T & _ & _ & _ & [L _] & _) & _). unfold stops in T. rewrite E, Nat2Z.id, skipn_all in T.
  symmetry in T. apply app_eq_nil in T as [_ T]. apply app_eq_nil in T as [_ T]. apply app_eq_nil in T as [-> _]. cbn in L. lia.
Qed.
Lemma untimed_no_zone text r : tag_is TTimeExpression r = false -> no_zone text r.
Proof. intros E (a & k & T & _). congruence. Qed.

Definition shown (o : outcome bytes) : outcome bytes := s <- o ;; Ret (bs "Date:" ++ [ascii_of_N 9] ++ s).

Lemma sort_single sortf r : is_sort sortf -> sortf [r] = [r].
Proof. intros H. destruct (H [r]) as [P _]. apply Permutation_length_1_inv in P. exact P. Qed.
Lemma sort_nil sortf : is_sort sortf -> sortf [] = [].
Proof. intros H. destruct (H []) as [P _]. apply Permutation_nil in P. exact P. Qed.

Lemma main_single e sortf text ref r : is_sort sortf -> all_alone e parsers text ref = Ret [r] -> no_zone (to_lower text) r ->
  main e sortf gwords_init text ref = shown (toDate r).
Proof.
  intros Hs H N. rewrite main_alone, H. cbn [bind]. rewrite sort_single by exact Hs.
  destruct (refiners_single r (to_lower text) N) as (r' & E & S). rewrite E. cbn [bind show]. rewrite (toDate_same _ _ S). reflexivity.
Qed.

Lemma main_whole e sortf text ref rs r : sane e -> is_sort sortf -> Z.of_nat (List.length text) < 2 ^ 32 ->
  all_alone e parsers text ref = Ret rs -> In r rs -> getIndex r = 0 -> textLength r = Z.of_nat (List.length text) ->
  (forall r', In r' rs -> r' = r \/ textLength r' < textLength r) ->
  main e sortf gwords_init text ref = shown (toDate r).
Proof.
  intros He Hs Hn H Ir I0 Lr D. rewrite main_alone, H. cbn [bind].
  destruct (Hs rs) as [P B].
  assert (Cp : forall x, In x rs -> res_copy x = x).
  { intros x Ix. apply (all_alone_in _ _ _ _ _ H) in Ix as (p & l & Ip & Xp & Il). pose proof (execute_copies _ _ _ _ _ _ Xp) as E.
    clear - E Il. induction l as [|y l IH]; [contradiction|]. cbn [map] in E. injection E as E1 E2. destruct Il as [<-|Il]; auto. }
  assert (Po : forall x, In x rs -> 0 < textLength x /\ 0 <= getIndex x < textLength r /\ (x = r \/ textLength x < textLength r)).
  { intros x Ix. pose proof (D x Ix) as Dx. apply (all_alone_in _ _ _ _ _ H) in Ix as (p & l & Ip & Xp & Il). apply in_all in Ip.
    pose proof (result_text _ _ _ _ _ _ _ He Ip Xp Il) as T. assert (0 < textLength x) by (unfold textLength; destruct (r_text x); [congruence|cbn [List.length]; lia]).
    split; [assumption|]. split; [|exact Dx]. pose proof (C13_results_in_order _ _ _ _ _ _ He Ip Hn Xp) as O. rewrite Lr.
    clear - O Il H0. induction O as [|y l H1 H2 H3 O IH]; [contradiction|]. destruct Il as [<-|Il]; auto. lia. }
  assert (E : overlap_refine (sortf rs) = [r]).
  { assert (F1 : Forall (fun x => res_copy x = x) (sortf rs)) by (apply Forall_forall; intros x Ix; apply Cp; eapply Permutation_in; [apply Permutation_sym; exact P|exact Ix]).
    assert (F2 : Forall (fun x => 0 < textLength x /\ 0 <= getIndex x < textLength r /\ (x = r \/ textLength x < textLength r)) (sortf rs))
      by (apply Forall_forall; intros x Ix; apply Po; eapply Permutation_in; [apply Permutation_sym; exact P|exact Ix]).
    pose proof (Permutation_in _ P Ir) as Is. destruct (sortf rs) as [|a l]; [contradiction|].
    inversion F2 as [|? ? (A1 & _) _]; subst. inversion F1 as [|? ? A2 F1']; subst.
    rewrite refine_loop by (apply filled_nonempty; intros E; unfold textLength in A1; rewrite E in A1; cbn in A1; lia).
    rewrite A2. assert (M : map res_copy l = l). { clear - F1'. induction F1' as [|x l Hx F IH]; [reflexivity|]. cbn [map]. rewrite Hx, IH. reflexivity. }
    rewrite M. assert (Dd : a = r \/ In r l) by (destruct Is as [->|Is]; auto). apply overlap_wins; auto. apply Po; exact Ir. }
  destruct (refiners_single r (to_lower text)) as (r' & E' & S').
  { apply whole_no_zone. unfold to_lower. rewrite map_length, I0, Lr. reflexivity. }
  assert (E2 : run_refiners (sortf rs) (to_lower text) = run_refiners [r] (to_lower text)).
  { unfold run_refiners. rewrite E. cbn [overlap_refine map]. rewrite (Cp r Ir). reflexivity. }
  rewrite E2, E'. cbn [bind show]. rewrite (toDate_same _ _ S'). reflexivity.
Qed.

(** ** Silent parsers *)
Definition silent (text : bytes) (p : parser) : Prop :=
  match compile (p_pattern p) with Some r => search true r (to_lower text) = None | None => True end.
Lemma silent_alone e p text ref : silent text p -> alone e p text ref = Ret [].
Proof.
  unfold silent, alone, execute. destruct (compile (p_pattern p)) as [r|]; [|reflexivity]. intros H. cbn [exec_loop]. rewrite H. reflexivity.
Qed.
Lemma silent_lower t t' p : to_lower t = to_lower t' -> silent t p -> silent t' p.
Proof. unfold silent. intros ->. auto. Qed.
Lemma all_silent e ps text ref : Forall (silent text) ps -> all_alone e ps text ref = Ret [].
Proof. induction 1 as [|p ps H F IH]; [reflexivity|]. cbn [all_alone]. rewrite (silent_alone _ _ _ _ H), IH. reflexivity. Qed.
Lemma all_alone_app e ps qs text ref : all_alone e (ps ++ qs) text ref = (a <- all_alone e ps text ref ;; b <- all_alone e qs text ref ;; Ret (a ++ b)).
Proof.
  induction ps as [|p ps IH]; cbn [app all_alone]; [cbn [bind]; destruct (all_alone e qs text ref); reflexivity|].
  destruct (alone e p text ref); cbn [bind]; try reflexivity. rewrite IH. destruct (all_alone e ps text ref); cbn [bind]; try reflexivity.
  destruct (all_alone e qs text ref); cbn [bind]; try reflexivity. rewrite app_assoc. reflexivity.
Qed.
Lemma lone_parser e ps p qs text ref : Forall (silent text) (ps ++ qs) -> all_alone e (ps ++ p :: qs) text ref = alone e p text ref.
Proof.
  intros F. apply Forall_app in F as [F1 F2]. rewrite all_alone_app, (all_silent _ _ _ _ F1). cbn [bind all_alone].
  destruct (alone e p text ref) as [rs| | | |]; cbn [bind]; try reflexivity. rewrite (all_silent _ _ _ _ F2). cbn [bind]. rewrite app_nil_r. reflexivity.
Qed.

(** ** Sorting *)
Lemma sorted_unique : forall l l', Permutation l l' -> by_index l -> by_index l' -> NoDup (map getIndex l) -> l = l'.
Proof.
  induction l as [|a l IH]; intros l' P B B' N.
  - apply Permutation_nil in P. subst. reflexivity.
  - destruct l' as [|b l']; [apply Permutation_sym, Permutation_nil in P; discriminate|].
    pose proof (by_index_all _ _ B) as A. pose proof (by_index_all _ _ B') as A'. inversion N as [|? ? Na N']; subst.
    assert (a = b).
    { pose proof (Permutation_in a P (or_introl eq_refl)) as I. pose proof (Permutation_in b (Permutation_sym P) (or_introl eq_refl)) as I'.
      destruct I as [->|I]; [reflexivity|]. destruct I' as [->|I']; [reflexivity|]. exfalso.
      rewrite Forall_forall in A, A'. specialize (A b I'). specialize (A' a I). unfold starts in *.
      apply Na. replace (getIndex a) with (getIndex b) by lia. apply in_map. exact I'. }
    subst b. f_equal. apply IH; [eapply Permutation_cons_inv; exact P|eapply by_index_tl; exact B|eapply by_index_tl; exact B'|exact N'].
Qed.
Definition silentb (text : bytes) (p : parser) : bool :=
  match compile (p_pattern p) with Some r => match search true r (to_lower text) with None => true | Some _ => false end | None => true end.
Lemma silentb_ok text ps : forallb (silentb text) ps = true -> Forall (silent text) ps.
Proof.
  intros H. apply Forall_forall. intros p I. rewrite forallb_forall in H. specialize (H p I). unfold silentb, silent in *.
  destruct (compile (p_pattern p)) as [r|]; [|exact Logic.I]. destruct (search true r (to_lower text)); [discriminate|reflexivity].
Qed.
