(** * "tomorrow" and "yesterday" followed by a blank (C111, C112) *)
From Verif Require Import Base Regex RegexParse Calendar Components Utils Execute Spec View ParserSpec ClockSpec ClockTextSpec CalendarCycle CalendarFacts RegexFacts ResultFacts
  ExecuteFacts ParserRe MatchFacts LocateFacts HistoryFacts ParserFacts CasualFacts ZoneFacts MergeFacts FoundFacts OverlapFacts Segments P_CasualDate P_TimeExpression Prop_Casual Prop_Found Refiners Main Prop_Execute Prop_Refine Prop_Tags
  MainFacts Prop_Main Prop_Answers Prop_Format Prop_Sentence Prop_ClockText Prop_ClockAnswer Prop_DateTime.
From Coq Require Import ZifyBool ZifyNat ZifyN Permutation.
Open Scope string_scope.
Open Scope list_scope.
Open Scope nat_scope.

(** ** The blanks after the word are taken *)
Definition star (k : st -> option st) : nat -> st -> option st := fix star (n : nat) (s : st) {struct n} : option st :=
  match n with
  | O => None
  | S n' => match rm true (RSet false [CClass false KSpace]) s (fun s' => if Nat.ltb (List.length (s_rest s')) (List.length (s_rest s)) then star n' s' else None) with
            | Some x => Some x
            | None => k s
            end
  end.
Lemma star_S k n c t o cs : star k (S n) (mkst o (c :: t) cs) =
  match (if set_ok true false [CClass false KSpace] c then if Nat.ltb (List.length t) (List.length (c :: t)) then star k n (mkst (Some c) t cs) else None else None) with Some x => Some x | None => k (mkst o (c :: t) cs) end.
Proof. reflexivity. Qed.
Lemma star_sps k s : rm true SPs s k = star k (S (List.length (s_rest s))) s.
Proof. reflexivity. Qed.
Lemma space_set c : set_ok true false [CClass false KSpace] c = is_space c.
Proof. destruct c as [[] [] [] [] [] [] [] []]; vm_compute; reflexivity. Qed.
Lemma star_blanks k d T x : is_space d = false -> forall sp o cs n, blanks sp -> List.length sp < n -> k (mkst (lastc sp o) (d :: T) cs) = Some x -> star k n (mkst o (sp ++ d :: T) cs) = Some x.
Proof.
  intros Hd sp. induction sp as [|c sp IH]; intros o cs n B L K.
  - destruct n as [|n]; [lia|]. cbn [app]. rewrite star_S, space_set, Hd. exact K.
  - inversion B as [|? ? Hc B']; subst. destruct n as [|n]; [cbn in L; lia|]. cbn [app]. rewrite star_S, space_set, Hc.
    replace (Nat.ltb (List.length (sp ++ d :: T)) (List.length (c :: sp ++ d :: T))) with true by (symmetry; apply Nat.ltb_lt; cbn; lia).
    rewrite (IH (Some c) cs n B'); [reflexivity|cbn in L; lia|exact K].
Qed.
Definition swallowing : list string := ["tomorrow"; "tmr"; "yesterday"].
Lemma word_not_space d : is_word d = true -> is_space d = false.
Proof. intros H. destruct d as [[] [] [] [] [] [] [] []]; vm_compute in H |- *; try discriminate H; reflexivity. Qed.
Lemma swallow_words w o sp d T cs k x : In w swallowing -> blanks sp -> is_space d = false -> k (mkst (lastc sp (lastc (bs w) o)) (d :: T) cs) = Some x ->
  rm true cd_words (mkst o (bs w ++ sp ++ d :: T) cs) k = Some x.
Proof.
  intros I B Hd K.
  assert (Q : forall u, In u swallowing -> rm true cd_words (mkst o (bs u ++ sp ++ d :: T) cs) k =
     match rm true SPs (mkst (lastc (bs u) o) (sp ++ d :: T) cs) k with Some y => Some y | None => rm true cd_words (mkst o (bs u ++ sp ++ d :: T) cs) k end).
  { intros u Iu. cbn in Iu. destruct Iu as [<-|[<-|[<-|[]]]].
    all: match goal with |- context [rm true SPs ?s ?kk] => destruct (rm true SPs s kk) as [y|] eqn:R; [|reflexivity] end.
    all: cbn [cd_words rm bs list_ascii_of_string app s_rest s_caps s_prev]; unfold SPs in R; cbn in R |- *; rewrite R; reflexivity. }
  rewrite (Q w I). rewrite star_sps. rewrite (star_blanks k d T x Hd); [reflexivity|exact B|cbn [s_rest]; rewrite app_length; cbn; lia|exact K].
Qed.

Lemma blank_not_word c : is_space c = true -> is_word c = false.
Proof. intros H. destruct c as [[] [] [] [] [] [] [] []]; vm_compute in H |- *; try discriminate H; reflexivity. Qed.
Lemma lastc_blank sp o : blanks sp -> sp <> [] -> word_opt (lastc sp o) = false.
Proof.
  intros B N. destruct sp as [|x sp'] using rev_ind; [congruence|]. rewrite lastc_app. cbn. apply Forall_app in B as [_ B]. inversion B as [|? ? Bx _]; subst.
  apply blank_not_word. exact Bx.
Qed.
Lemma rm_wb_ok n s k : xorb (word_opt (s_prev s)) (word_opt (hd_error (s_rest s))) = true -> rm true (WB n) s k = k (mkst (s_prev s) (s_rest s) ((n, []) :: s_caps s)).
Proof.
  intros Hb. unfold WB. rewrite rm_grp. cbn [rm]. unfold at_wb. replace (xorb false _) with true.
  - unfold consumed. rewrite Nat.sub_diag. reflexivity.
  - symmetry. rewrite Bool.xorb_false_l. exact Hb.
Qed.
Lemma swallow_run w o sp d T : In w swallowing -> blanks sp -> sp <> [] -> word_opt o = false -> is_word d = true ->
  exists z, rm true casual_date_re (mkst o (bs w ++ sp ++ d :: T) []) Some = Some z /\ s_rest z = d :: T.
Proof.
  intros I B N Ho Hd. unfold casual_date_re. rewrite HistoryFacts.rm_cat, rm_wb_ok.
  2: { cbn [s_prev s_rest]. rewrite Ho. cbn in I. destruct I as [<-|[<-|[<-|[]]]]; reflexivity. }
  cbn [s_prev s_rest s_caps]. rewrite HistoryFacts.rm_cat, rm_grp.
  eexists. split.
  - apply swallow_words; [exact I|exact B|apply word_not_space; exact Hd|]. cbn [s_prev s_rest s_caps]. rewrite rm_wb_ok; [reflexivity|].
    cbn [s_prev s_rest hd_error]. rewrite (lastc_blank _ _ B N). cbn [word_opt]. rewrite Hd. reflexivity.
  - reflexivity.
Qed.
Open Scope Z_scope.
(** C111, recognition.  "tomorrow", "tmr" and "yesterday" followed by blanks and a letter, digit or underscore: the result includes all the blanks. *)
Theorem C111_blanks_taken : forall e g text t us pre w sp d T, sane e -> real_instant t us -> neighbours (mdate t) -> Z.of_nat (List.length text) < 2 ^ 32 ->
  In w swallowing -> blanks sp -> sp <> [] -> is_word d = true -> to_lower text = pre ++ bs w ++ sp ++ d :: T -> (forall a c, pre = a ++ [c] -> is_word c = false) ->
  exists rs res, x_res (execute e casual_date g text (ptime_of t us)) = Ret rs /\ In res rs /\ stands res pre (bs w ++ sp) /\ has_end res = false /\ casual_date_means t (bs w ++ sp) res.
Proof.
  intros e g text t us pre w sp d T He H N Hn Iw B Ns Hd E Sa. destruct (C18_casual_dates_total e g text t us H N He) as [rs X].
  assert (Cw : Prop_Found.casual_phrase (bs w)) by (left; cbn in Iw |- *; destruct Iw as [<-|[<-|[<-|[]]]]; tauto).
  assert (Sp : separate pre (sp ++ d :: T)). { split; [exact Sa|]. intros c b Ec. destruct sp as [|x sp]; [congruence|]. cbn in Ec. injection Ec as -> _. inversion B; subst. apply blank_not_word. assumption. }
  destruct (Prop_Found.casual_heads (bs w) Cw) as (w1 & w2 & F & Ew).
  destruct (found_at e casual_date casual_date_re (ptime_of t us) text g rs pre (bs w ++ sp ++ d :: T) He in_casual_date locates_casual_date casual_date_compile Hn E)
    as (k & m & g0 & g1 & res & q & A1 & A2 & A3 & A4 & A5 & A6 & A7 & A8 & A9 & A10).
  - intros k _. apply starts_casual; assumption.
  - apply (none_before outside casual_firsts casual_date_re pre _ w1 (w2 ++ sp ++ d :: T) casual_apart); [cbn; lia| |exact F|rewrite Ew, <- app_assoc; reflexivity|rewrite <- E; apply low_to_lower].
    intros a c Ea. unfold outside. rewrite (Sa a c Ea). reflexivity.
  - exact X.
  - destruct (swallow_run w (lastc (skipn k pre) None) sp d T Iw B Ns (lastc_skipn_word _ _ Sa) Hd) as (z & Rz & Zr).
    rewrite Rz in A5. apply some_inj in A5. subst z. cbn [s_rest] in Zr. subst q. rewrite app_assoc in A4. apply app_inv_tail in A4.
    cbn [p_extract casual_date] in A6. unfold pure_extract in A6. injection A6 as _ A6.
    destruct (casual_date_extracted _ _ _ _ _ _ _ _ H A3 A2 A6) as (M & _ & _ & En & _). rewrite <- A4 in M, A8.
    exists rs, (res_copy res). split; [exact X|]. split; [apply A9; eapply casual_date_possible; eauto|]. split; [split; [exact A7|exact A8]|]. split; [exact En|exact M].
Qed.
Print Assumptions C111_blanks_taken.

(** the day the three words name *)
Definition swallow_day (t : moment) (w : string) (d : cal) : Prop :=
  if String.eqb w "yesterday" then days_after (-1) (mdate t) d else if 0 <? mhour t then days_after 1 (mdate t) d else d = mdate t.
(** the hour at which the program puts that day when no time is merged into it *)
Definition swallow_hour (t : moment) (w : string) : Z := if String.eqb w "yesterday" then mhour t else 0.
Lemma swallow_means t w sp d res : In w swallowing -> swallow_day t w d -> casual_date_means t (bs w ++ sp) res ->
  on_date (r_start res) d /\ no_clock (r_start res) /\ denotes (r_start res) (Moment d (swallow_hour t w) 0 0).
Proof.
  intros Iw Dd (U & M).
  assert (V : forall l f, untouched l (r_start res) -> In f l -> api_get f (r_start res) = 0) by (intros l f Ul I; unfold untouched in Ul; rewrite Forall_forall in Ul; apply Ul; exact I).
  assert (K : exists c, date_certain (r_start res) c /\ swallow_day t w c /\ no_clock (r_start res) /\ getHour (r_start res) = swallow_hour t w /\ untouched [Min; Sec] (r_start res)).
  { cbn in Iw. destruct Iw as [<-|[<-|[<-|[]]]].
    all: destruct M as [(X & _)|[(X & _)|[(X & _)|[(s & c' & X & _)|[(s & c' & X & _ & _ & D1 & D2 & D3 & D4)|(s & c' & X & _ & _ & D1 & D2 & D3)]]]]].
    all: try (exfalso; cbn in X; first [discriminate X|destruct X as [X|X]; discriminate X]).
    - exists c'. split; [exact D2|]. split; [exact D1|]. split; [apply (untouched_no_clock _ _ D3); cbn; tauto|]. split; [apply (V _ Hour D3); cbn; tauto|].
      unfold untouched in *. rewrite Forall_forall in *. intros f I. apply D3. cbn in I |- *. tauto.
    - exists c'. split; [exact D2|]. split; [exact D1|]. split; [apply (untouched_no_clock _ _ D3); cbn; tauto|]. split; [apply (V _ Hour D3); cbn; tauto|].
      unfold untouched in *. rewrite Forall_forall in *. intros f I. apply D3. cbn in I |- *. tauto.
    - exists c'. split; [exact D2|]. split; [exact D1|]. split; [|split; [exact (implied_value _ _ _ D3)|exact D4]].
      intros f [<-|[<-|[<-|[]]]]; [apply D3|..]; unfold untouched in D4; rewrite Forall_forall in D4; apply D4; cbn; tauto. }
  destruct K as (c & Dc & Sc & Nc & Gh & Um).
  assert (c = d) as ->. { unfold swallow_day in *. destruct (String.eqb w "yesterday"); [|destruct (0 <? mhour t)]; [symmetry; eapply days_after_fun; eassumption..|congruence]. }
  pose proof (date_on _ _ (or_introl Dc)) as Od. split; [exact Od|]. split; [exact Nc|]. destruct Od as (O1 & O2 & O3). unfold denotes. cbn [mdate mhour mmin msec].
  split; [exact O1|]. split; [exact O2|]. split; [exact O3|]. split; [exact Gh|]. split; [apply (V _ Min Um)|apply (V _ Sec Um)]; cbn; tauto.
Qed.
Lemma in_casual_plain : In casual_date [casual_date; P_CasualTime.casual_time; P_Deadline.deadline; P_ISO.iso; P_Holiday.holiday; P_Week.week].
Proof. left. reflexivity. Qed.
Lemma swallow_found e text t us pre w sp x T d l : sane e -> real_instant t us -> neighbours (mdate t) -> Z.of_nat (List.length text) < 2 ^ 32 ->
  In w swallowing -> blanks sp -> sp <> [] -> is_word x = true -> to_lower text = pre ++ bs w ++ sp ++ x :: T -> (forall a c, pre = a ++ [c] -> is_word c = false) -> swallow_day t w d ->
  alone e casual_date text (ptime_of t us) = Ret l ->
  exists res, In res l /\ (getIndex res = Z.of_nat (List.length pre) /\ textLength res = Z.of_nat (List.length (bs w ++ sp))) /\ has_end res = false /\ on_date (r_start res) d /\ no_clock (r_start res) /\
    tag_is TTimeExpression res = false /\ denotes (r_start res) (Moment d (swallow_hour t w) 0 0).
Proof.
  intros He H N Hn Iw B Ns Hx E Sa Dd El.
  destruct (C111_blanks_taken e gwords_init text t us pre w sp x T He H N Hn Iw B Ns Hx E Sa) as (rs & res & X & I & St & En & M).
  pose proof El as El'. unfold alone in El'. rewrite X in El'. apply RelativeFacts.ret_inj in El'. subst l.
  destruct (swallow_means t w sp d res Iw Dd M) as (Od & Nc & De). exists res. split; [exact I|]. split; [exact (stands_place _ _ _ St)|].
  split; [exact En|]. split; [exact Od|]. split; [exact Nc|]. split; [|exact De]. exact (plain_untimed e casual_date text _ rs res He in_casual_plain El I).
Qed.

(** C111.  A text contains "tomorrow", "tmr" or "yesterday", at least one blank, a word, and later a clock time [c] that is not run together with the blanks.  Nothing else is recognised.
    Then the program prints the day named at that time.  "tomorrow" is today for references before 1 o'clock (C18). *)
Theorem C111_day_words_time : forall e sortf text t us pre w sp x mid c k q post d h mi, sane e -> is_sort sortf -> real_instant t us -> neighbours (mdate t) -> Z.of_nat (List.length text) < 2 ^ 31 ->
  to_lower text = pre ++ (bs w ++ sp) ++ (x :: mid) ++ c ++ post -> In w swallowing -> blanks sp -> sp <> [] -> is_word x = true -> (forall a b, pre = a ++ [b] -> is_word b = false) ->
  swallow_day t w d -> real_date d ->
  clock_words c k q -> clear_before (pre ++ (bs w ++ sp) ++ x :: mid) -> clear_after q post -> clock_time k h mi -> seconds_fine k -> on_clock (ck_mark k) h < 24 ->
  ~ zone_follows post -> (forall v, In v connectors -> ~ occurs v post) -> only_pair e text (ptime_of t us) casual_date pre (bs w ++ sp) (x :: mid) c ->
  main e sortf gwords_init text (ptime_of t us) = Ret (line (bs (written (day_moment d k h mi)))).
Proof.
  intros e sortf text t us pre w sp x mid c k q post d h mi He Hs H N Hn E Iw B Ns Hx Sa Dd Rd Cw Cb Ca Ct Sf H24 Nz Nc Al.
  apply (pair_main e sortf text t us casual_date pre (bs w ++ sp) (x :: mid) c k q post d h mi); auto; [exact (day_in _ in_casual_plain)|exact (plain_in _ in_casual_plain)| |discriminate|].
  - intros Q. apply app_eq_nil in Q as [_ Q]. exact (Ns Q).
  - intros l El. rewrite <- !app_assoc in E. cbn [app] in E. assert (Hn2 : Z.of_nat (List.length text) < 2 ^ 32) by (clear - Hn; lia).
    destruct (swallow_found e text t us pre w sp x (mid ++ c ++ post) d l He H N Hn2 Iw B Ns Hx E Sa Dd El) as (res & A1 & A2 & A3 & A4 & A5 & A6 & _). exists res. auto 10.
Qed.
Print Assumptions C111_day_words_time.

(** ** Two results of which the second starts inside the first *)
Lemma loop_same b l : 0 < textLength b -> res_copy b = b -> Forall (fun x => x = b) l -> overlap_loop b l = [b].
Proof.
  intros Lb Cb F. induction F as [|y l -> F IH]; cbn [overlap_loop].
  - rewrite filled_nonempty; [reflexivity|]. intros Q. unfold textLength in Lb. rewrite Q in Lb. cbn in Lb. lia.
  - replace (getIndex b <? res_stop b) with true by (unfold res_stop; lia). rewrite Z.ltb_irrefl. exact IH.
Qed.
Lemma overlap_touching a b l : by_index l -> Forall (fun x => res_copy x = x) l -> In a l -> In b l -> Forall (fun x => x = a \/ x = b) l -> 0 < textLength a -> 0 < textLength b ->
  getIndex a < getIndex b < getIndex a + textLength a -> overlap_refine l = [if textLength a <? textLength b then b else a].
Proof.
  intros B C Ia Ib F La Lb Ix.
  assert (Cc : forall x, In x l -> res_copy x = x) by (rewrite Forall_forall in C; exact C). pose proof (Cc a Ia) as Ca. pose proof (Cc b Ib) as Cb.
  assert (M : map res_copy l = l). { clear - C. induction C as [|x l Hx F IH]; [reflexivity|]. cbn [map]. rewrite Hx, IH. reflexivity. }
  destruct l as [|y l]; [contradiction|].
  assert (y = a) as ->.
  { destruct (Forall_inv F) as [Q|Q]; [exact Q|]. destruct Ia as [Q'|Ia]; [exact Q'|]. apply by_index_all in B. rewrite Forall_forall in B. specialize (B a Ia). rewrite Q in B. unfold OverlapFacts.starts in B. lia. }
  rewrite refine_loop by (apply filled_nonempty; intros Q; unfold textLength in La; rewrite Q in La; cbn in La; lia).
  cbn [map] in M. injection M as M1 M2. rewrite M1, M2. destruct Ib as [Q|Ib]; [subst b; lia|]. clear M1 M2 Ia C.
  pose proof (Forall_inv_tail F) as F'. clear F. induction F' as [|y l Hy F' IH]; [contradiction|]. cbn [overlap_loop]. unfold res_assign.
  pose proof (by_index_tl _ _ B) as Bt. pose proof (by_index_all _ _ Bt) as Ay.
  destruct Hy as [->| ->].
  - rewrite Z.ltb_irrefl. replace (getIndex a <? res_stop a) with true by (unfold res_stop; lia). apply IH; [destruct Ib as [Q|Ib]; [subst b; lia|exact Ib]|exact Bt|].
    intros x [<-|I]; apply Cc; cbn; auto.
  - replace (getIndex b <? res_stop a) with true by (unfold res_stop; lia). rewrite Cb.
    assert (Fb : Forall (fun x => x = b) l).
    { rewrite Forall_forall in *. intros x I. destruct (F' x I) as [->|Q]; [|exact Q]. specialize (Ay a I). unfold OverlapFacts.starts in Ay. lia. }
    destruct (textLength a <? textLength b) eqn:L; [apply loop_same; assumption|].
    clear - Fb L La Ca Ix. induction Fb as [|z l -> Fb IH]; cbn [overlap_loop].
    + rewrite filled_nonempty; [reflexivity|]. intros Q. unfold textLength in La. rewrite Q in La. cbn in La. lia.
    + replace (getIndex b <? res_stop a) with true by (unfold res_stop; lia). rewrite L. exact IH.
Qed.

(** the time [r] is recognised as starting inside the phrase [w] after [pre], and apart from it only casual dates starting inside that phrase are *)
Definition only_touching (e : env) (text : bytes) (ref : ptime) (pre w : bytes) (r : result) : Prop :=
  x_res (execute e time_expression gwords_init text ref) = Ret [r] /\ Z.of_nat (List.length pre) < getIndex r < Z.of_nat (List.length pre) + Z.of_nat (List.length w) /\
  forall p, In p other_parsers -> exists l, x_res (execute e p gwords_init text ref) = Ret l /\ forall y, In y l ->
     p = casual_date /\ Z.of_nat (List.length pre) <= getIndex y < Z.of_nat (List.length pre) + Z.of_nat (List.length w).
Lemma main_touching e sortf text ref rs a b : sane e -> is_sort sortf -> all_alone e parsers text ref = Ret rs -> In a rs -> In b rs -> getIndex a < getIndex b < getIndex a + textLength a ->
  (forall r, In r rs -> r = a \/ r = b) -> main e sortf gwords_init text ref = main_rest (if textLength a <? textLength b then b else a) (to_lower text).
Proof.
  intros He Hs H Ia Ib Ix D. rewrite main_alone, H. cbn [bind]. destruct (Hs rs) as [P B].
  assert (Cp : forall x, In x rs -> res_copy x = x).
  { intros x Ixx. apply (all_alone_in _ _ _ _ _ H) in Ixx as (p & l & Ip & Xp & Il). pose proof (execute_copies _ _ _ _ _ _ Xp) as E.
    clear - E Il. induction l as [|y l IH]; [contradiction|]. cbn [map] in E. injection E as E1 E2. destruct Il as [<-|Il]; auto. }
  assert (Ps : forall x, In x rs -> 0 < textLength x).
  { intros x Ixx. apply (all_alone_in _ _ _ _ _ H) in Ixx as (p & l & Ip & Xp & Il). apply in_all in Ip.
    pose proof (result_text _ _ _ _ _ _ _ He Ip Xp Il) as T. unfold textLength; destruct (r_text x); [congruence|cbn [List.length]; lia]. }
  assert (O : overlap_refine (sortf rs) = [if textLength a <? textLength b then b else a]).
  { apply overlap_touching; auto.
    - apply Forall_forall; intros x Ixx; apply Cp; eapply Permutation_in; [apply Permutation_sym; exact P|exact Ixx].
    - exact (Permutation_in _ P Ia).
    - exact (Permutation_in _ P Ib).
    - apply Forall_forall. intros x Ixx. apply D. eapply Permutation_in; [apply Permutation_sym; exact P|exact Ixx]. }
  unfold main_rest. assert (R : run_refiners (sortf rs) (to_lower text) = run_refiners [if textLength a <? textLength b then b else a] (to_lower text)).
  { unfold run_refiners. rewrite O. cbn [overlap_refine map]. replace (res_copy (if textLength a <? textLength b then b else a)) with (if textLength a <? textLength b then b else a); [reflexivity|].
    destruct (textLength a <? textLength b); symmetry; apply Cp; assumption. }
  rewrite R. reflexivity.
Qed.

(** C112.  "tomorrow", "tmr" or "yesterday", blanks, and a clock time [c] (perhaps after "at" and the like) whose result [r] is recognised as starting at the blanks: the two overlap, and only the longer one counts.
    If the time is not longer than the word and the blanks, the time is lost; otherwise the day is lost and the program prints the reference date at that time. *)
Theorem C112_day_or_time : forall e sortf text t us pre w sp intro c k q post d h mi r, sane e -> is_sort sortf -> real_instant t us -> neighbours (mdate t) -> Z.of_nat (List.length text) < 2 ^ 32 ->
  to_lower text = pre ++ (bs w ++ sp) ++ intro ++ c ++ post -> In w swallowing -> blanks sp -> sp <> [] -> (forall x b, intro = x :: b -> is_word x = true) -> (forall a b, pre = a ++ [b] -> is_word b = false) ->
  swallow_day t w d -> real_date d ->
  clock_words c k q -> clear_before (pre ++ (bs w ++ sp) ++ intro) -> clear_after q post -> clock_time k h mi -> seconds_fine k -> on_clock (ck_mark k) h < 24 ->
  ~ zone_follows post -> only_touching e text (ptime_of t us) pre (bs w ++ sp) r ->
  main e sortf gwords_init text (ptime_of t us) =
    Ret (line (bs (written (if textLength r <=? Z.of_nat (List.length (bs w ++ sp)) then Moment d (swallow_hour t w) 0 0 else clock_moment t k h mi)))).
Proof.
  intros e sortf text t us pre w sp intro c k q post d h mi r He Hs H N Hn E Iw B Ns Hx Sa Dd Rd Cw Cb Ca Ct Sf H24 Nz (Er & Ix & Al).
  destruct (words_start _ _ _ Cw) as (c0 & c' & Ec & Hc0).
  assert (Ex : exists x T, intro ++ c ++ post = x :: T /\ is_word x = true).
  { destruct intro as [|x intro]; [rewrite Ec; cbn [app]; eauto|]. cbn [app]. eexists. eexists. split; [reflexivity|]. eapply Hx. reflexivity. }
  destruct Ex as (x & T & Ex & Wx).
  assert (E1 : to_lower text = pre ++ bs w ++ sp ++ x :: T) by (rewrite E, Ex, <- !app_assoc; reflexivity).
  assert (E2 : to_lower text = (pre ++ (bs w ++ sp) ++ intro) ++ c ++ post) by (rewrite E, <- !app_assoc; reflexivity).
  destruct (clock_stands e gwords_init text t us [r] (pre ++ (bs w ++ sp) ++ intro) c k q post h mi He H Hn E2 Cw Cb Ca Ct Sf Er)
    as (r0 & y & lead & op & gap & rest & [<-|[]] & Ey & Hl & Op & Ep & Hg & Iy & Tx & En & At & T1 & T2).
  assert (Ic : In casual_date other_parsers) by exact (day_in _ in_casual_plain). assert (Ic' : In casual_date parsers) by exact (plain_in _ in_casual_plain).
  destruct (Al casual_date Ic) as (lc & Elc & Blc).
  destruct (swallow_found e text t us pre w sp x T d lc He H N Hn Iw B Ns Wx E1 Sa Dd Elc) as (dr & Id & (Dx & Ld) & De & Do & Dn & Dut & Dd').
  assert (It' : In time_expression parsers) by (cbn; tauto).
  assert (A : exists rs, all_alone e parsers text (ptime_of t us) = Ret rs).
  { assert (Q : exists rss, Forall2 (fun p l => alone e p text (ptime_of t us) = Ret l) parsers rss).
    { assert (Al' : forall p, In p parsers -> exists l, alone e p text (ptime_of t us) = Ret l).
      { intros q0 Iq. apply others in Iq as [<-|Iq]; [eexists; exact Er|]. destruct (Al q0 Iq) as (l & El & _). eexists; exact El. }
      revert Al'. clear. generalize parsers as ps. induction ps as [|p ps IH]; intros Al; [exists []; constructor|]. destruct (Al p (or_introl eq_refl)) as (l & El).
      destruct IH as [rss F]; [intros q' I'; apply Al; right; exact I'|]. exists (l :: rss). constructor; assumption. }
    destruct Q as [rss F]. exists (List.concat rss). apply all_alone_ret. eauto. }
  destruct A as [rs A].
  assert (Ir : In r rs) by (apply (all_alone_in _ _ _ _ _ A); exists time_expression, [r]; split; [exact It'|split; [exact Er|left; reflexivity]]).
  assert (Idr : In dr rs) by (apply (all_alone_in _ _ _ _ _ A); exists casual_date, lc; split; [exact Ic'|split; [exact Elc|exact Id]]).
  assert (Lw : 0 < textLength dr). { rewrite Ld, app_length. destruct sp; [congruence|]. cbn [List.length]. clear. lia. }
  rewrite (main_touching e sortf text (ptime_of t us) rs dr r He Hs A Idr Ir).
  - rewrite Ld. destruct (textLength r <=? Z.of_nat (List.length (bs w ++ sp))) eqn:L.
    + replace (Z.of_nat (List.length (bs w ++ sp)) <? textLength r) with false by (clear - L; lia). rewrite rest_plain by (apply untimed_no_zone; exact Dut).
      unfold shown. rewrite (toDate_start dr (Moment d (swallow_hour t w) 0 0)); [reflexivity|exact Dd'| | |exact De].
      * destruct H as [[_ R] _]. unfold real_moment. cbn [mdate mhour mmin msec]. split; [exact Rd|]. unfold swallow_hour. destruct (String.eqb w "yesterday"); clear - R; lia.
      * apply (C73_no_refiner_tag e casual_date gwords_init text (ptime_of t us) lc dr TExtractTZ He (in_all _ Ic') Elc Id). left. reflexivity.
    + replace (Z.of_nat (List.length (bs w ++ sp)) <? textLength r) with true by (clear - L; lia). rewrite rest_plain.
      * unfold shown. rewrite (toDate_start r (clock_moment t k h mi)); [reflexivity|apply at_time_denotes; assumption|eapply clock_real; eassumption| |exact En].
        apply (C73_no_refiner_tag e time_expression gwords_init text (ptime_of t us) [r] r TExtractTZ He (in_all _ It') Er (or_introl eq_refl)). left. reflexivity.
      * apply (clock_no_zone (to_lower text) y lead op c k q gap post rest); auto; [rewrite E2, Ey; reflexivity|apply Ca].
  - rewrite Dx, Ld. exact Ix.
  - intros r' Ir'. apply (all_alone_in _ _ _ _ _ A) in Ir' as (p & l & Ip & Xp & Il). apply others in Ip as [<-|Ip].
    + unfold alone in Xp. rewrite Er in Xp. apply RelativeFacts.ret_inj in Xp. subst l. destruct Il as [<-|[]]. right. reflexivity.
    + left. destruct (Al p Ip) as (l1 & El1 & B1). pose proof Xp as Xp'. unfold alone in Xp'. rewrite El1 in Xp'. apply RelativeFacts.ret_inj in Xp'. subst l1. destruct (B1 r' Il) as [-> B2].
      rewrite Elc in El1. apply RelativeFacts.ret_inj in El1. subst l.
      pose proof (result_text _ _ _ _ _ _ _ He (in_all _ Ic') Elc Il) as T0.
      apply (in_order_unique (Z.of_nat (List.length text)) lc); auto.
      { apply (C13_results_in_order _ _ _ _ _ _ He (in_all _ Ic') Hn Elc). }
      { unfold textLength. destruct (r_text r'); [congruence|cbn [List.length]; clear; lia]. }
      { rewrite Dx, Ld. exact B2. }
Qed.
Print Assumptions C112_day_or_time.

Definition touching_only (e : env) (text : bytes) (ref : ptime) (pre w : bytes) : bool :=
  let inside r := (Z.of_nat (List.length pre) <=? getIndex r) && (getIndex r <? Z.of_nat (List.length pre) + Z.of_nat (List.length w)) in
  match x_res (execute e time_expression gwords_init text ref) with Ret [r] => (Z.of_nat (List.length pre) <? getIndex r) && inside r | _ => false end &&
  forallb (fun q => match x_res (execute e q gwords_init text ref) with
    | Ret l => match l with [] => true | _ => beq (p_pattern q) (p_pattern casual_date) && forallb inside l end
    | _ => false end) other_parsers.
Lemma same_casual q : In q other_parsers -> beq (p_pattern q) (p_pattern casual_date) = true -> q = casual_date.
Proof. intros I E. cbn in I. repeat (destruct I as [<-|I]; [first [reflexivity|vm_compute in E; discriminate E]|]). contradiction. Qed.
Lemma touching_only_ok e text ref pre w : touching_only e text ref pre w = true -> exists r, only_touching e text ref pre w r.
Proof.
  unfold touching_only, only_touching. pose proof same_casual as Same. revert Same. generalize other_parsers casual_date. intros ps cd Same H. apply andb_prop in H as [H1 H2]. cbv zeta in *.
  destruct (x_res (execute e time_expression gwords_init text ref)) as [[|r [|]]| | | |]; try discriminate H1. exists r. split; [reflexivity|]. split; [clear - H1; lia|].
  intros q Iq. rewrite forallb_forall in H2. specialize (H2 q Iq). destruct (x_res (execute e q gwords_init text ref)) as [l| | | |]; try discriminate H2. exists l. split; [reflexivity|].
  intros y Iy. destruct l as [|z l]; [contradiction|]. apply andb_prop in H2 as [H2 H3]. split; [apply Same; assumption|]. rewrite forallb_forall in H3. specialize (H3 y Iy). clear - H3. lia.
Qed.
Lemma comma_connectors : forall v, In v connectors -> ~ occurs v (bs ", ok").
Proof. intros v Iv. cbn in Iv. destruct Iv as [<-|[<-|[<-|[<-|[]]]]]; apply Alphabet.containsb_ok; vm_compute; reflexivity. Qed.
Lemma comma_no_zone : ~ zone_follows (bs ", ok").
Proof.
  intros (abbr & z & (sp & lp & rp & E & B & Hl & _ & [L _] & F) & _). destruct sp as [|b sp]; [|cbn in E; injection E as <- _; inversion B; discriminate].
  destruct Hl as [->| ->]; [|discriminate]. destruct abbr as [|a abbr]; [cbn in L; lia|]. cbn in E. injection E as <- _. inversion F; discriminate.
Qed.
Lemma half_past_five : clock_time (Clock (bs "5") (bs "30") [] Pm) 5 30.
Proof. split; [apply (ts_minutes (bs "5") (bs "30") 5); [apply (hs_digits (bs "5")); [repeat constructor|cbn; lia]|repeat constructor|cbn; lia]|]; cbn; lia. Qed.
Lemma comma_after : clear_after (bs " pm") (bs ", ok").
Proof. apply (clear_sign (bs " pm") ","%char (bs " ok")); [discriminate|reflexivity|reflexivity|cbn; intuition discriminate]. Qed.
Lemma feb28 : days_after 1 (Cal 2024 2 27) (Cal 2024 2 28). Proof. concrete. Qed.

Example C111_case : let t := Moment (Cal 2024 2 27) 9 15 0 in let k := Clock (bs "5") (bs "30") [] Pm in let text := bs "Call me: Tomorrow we meet at 5:30 PM, ok" in
  real_instant t 3 /\ neighbours (mdate t) /\ to_lower text = bs "call me: " ++ (bs "tomorrow" ++ bs " ") ++ bs "we meet at " ++ bs "5:30 pm" ++ bs ", ok" /\ In "tomorrow"%string swallowing /\ blanks (bs " ") /\
  (forall a b, bs "call me: " = a ++ [b] -> is_word b = false) /\ swallow_day t "tomorrow" (Cal 2024 2 28) /\ real_date (Cal 2024 2 28) /\
  clock_words (bs "5:30 pm") k (bs " pm") /\ clear_before (bs "call me: " ++ (bs "tomorrow" ++ bs " ") ++ bs "we meet at ") /\ clear_after (bs " pm") (bs ", ok") /\ clock_time k 5 30 /\ seconds_fine k /\
  ~ zone_follows (bs ", ok") /\ (forall v, In v connectors -> ~ occurs v (bs ", ok")) /\
  only_pair strict_env text (ptime_of t 3) casual_date (bs "call me: ") (bs "tomorrow" ++ bs " ") (bs "we meet at ") (bs "5:30 pm") /\
  main strict_env sort_stable gwords_init text (ptime_of t 3) = Ret (line (bs "2024-Feb-28 17:30:00")).
Proof.
  cbv zeta. split; [inst|]. split; [exists (Cal 2024 2 26), (Cal 2024 2 28); inst|]. split; [reflexivity|]. split; [cbn; tauto|]. split; [repeat constructor|].
  split; [apply (proj1 (separate_dec (bs "call me: ") [] eq_refl eq_refl))|]. split; [exact feb28|]. split; [inst|]. split; [exact case_words|].
  split; [apply (clear_letter (bs "call me: tomorrow we meet a") "t"%char (bs " ")); [repeat constructor|discriminate|reflexivity|cbn; intuition discriminate]|].
  split; [exact comma_after|]. split; [exact half_past_five|]. split; [left; reflexivity|]. split; [exact comma_no_zone|]. split; [exact comma_connectors|].
  split; [apply pair_only_ok; [exact same_casual|vm_compute; reflexivity]|vm_compute; reflexivity].
Qed.
(** the time is lost in the first text, the day in the second *)
Example C112_case : let t := Moment (Cal 2024 2 27) 9 15 0 in let k := Clock (bs "5") (bs "30") [] Pm in
  let one := bs "Tomorrow 5:30 PM, ok" in let two := bs "Tomorrow at 5:30 PM, ok" in
  real_instant t 3 /\ neighbours (mdate t) /\ to_lower one = [] ++ (bs "tomorrow" ++ bs " ") ++ [] ++ bs "5:30 pm" ++ bs ", ok" /\ to_lower two = [] ++ (bs "tomorrow" ++ bs " ") ++ bs "at " ++ bs "5:30 pm" ++ bs ", ok" /\
  (forall x b, bs "at " = x :: b -> is_word x = true) /\ swallow_day t "tomorrow" (Cal 2024 2 28) /\ real_date (Cal 2024 2 28) /\
  clock_words (bs "5:30 pm") k (bs " pm") /\ clear_before ([] ++ (bs "tomorrow" ++ bs " ") ++ []) /\ clear_before ([] ++ (bs "tomorrow" ++ bs " ") ++ bs "at ") /\ clear_after (bs " pm") (bs ", ok") /\ clock_time k 5 30 /\ seconds_fine k /\
  ~ zone_follows (bs ", ok") /\ (exists r, only_touching strict_env one (ptime_of t 3) [] (bs "tomorrow" ++ bs " ") r) /\ (exists r, only_touching strict_env two (ptime_of t 3) [] (bs "tomorrow" ++ bs " ") r) /\
  main strict_env sort_stable gwords_init one (ptime_of t 3) = Ret (line (bs "2024-Feb-28 00:00:00")) /\
  main strict_env sort_stable gwords_init two (ptime_of t 3) = Ret (line (bs "2024-Feb-27 17:30:00")).
Proof.
  cbv zeta. split; [inst|]. split; [exists (Cal 2024 2 26), (Cal 2024 2 28); inst|]. split; [reflexivity|]. split; [reflexivity|]. split; [intros x b E; injection E as <- _; reflexivity|].
  split; [exact feb28|]. split; [inst|]. split; [exact case_words|].
  split; [apply (clear_letter (bs "tomorro") "w"%char (bs " ")); [repeat constructor|discriminate|reflexivity|cbn; intuition discriminate]|].
  split; [apply (clear_letter (bs "tomorrow a") "t"%char (bs " ")); [repeat constructor|discriminate|reflexivity|cbn; intuition discriminate]|].
  split; [exact comma_after|]. split; [exact half_past_five|]. split; [left; reflexivity|]. split; [exact comma_no_zone|].
  split; [apply touching_only_ok; vm_compute; reflexivity|]. split; [apply touching_only_ok; vm_compute; reflexivity|]. split; vm_compute; reflexivity.
Qed.
