(** * Two clock times in one text (C119, C120) *)
From Verif Require Import Base Regex RegexParse Calendar Components Utils Execute Spec View ParserSpec PhraseSpec ClockSpec ClockTextSpec CalendarCycle CalendarFacts RegexFacts ResultFacts
  ExecuteFacts ParserRe MatchFacts LocateFacts HistoryFacts ParserFacts CasualFacts ISOFacts ISOShape HolidayFacts ZoneFacts MergeFacts ClockFacts FoundFacts OverlapFacts P_CasualDate P_ISO P_Holiday P_TimeExpression Prop_Casual Prop_ISO Prop_Holiday Prop_Found Refiners Main Prop_Execute Prop_Refine Prop_Tags
  Prop_Days MainFacts Prop_Main Prop_Answers Prop_Format Prop_Sentence Prop_ClockText Prop_ClockAnswer Prop_DateTime Prop_Range Prop_TimeDay Prop_Tomorrow Prop_Fixed Prop_Linked.
From Coq Require Import ZifyBool ZifyNat ZifyN.
Open Scope string_scope.
Open Scope list_scope.
Open Scope Z_scope.

Lemma refined_hours_linked text a b ta tb : no_zone text a -> no_zone text b -> res_copy a = a -> res_copy b = b ->
  is_certain Hour (r_start a) = true -> is_certain Hour (r_start b) = true -> has_end a = false -> has_end b = false ->
  denotes (r_start a) ta -> denotes (r_start b) tb -> real_moment ta -> real_moment tb -> tag_is TExtractTZ a = false -> tag_is TExtractTZ b = false ->
  MergeFacts.solid text a -> MergeFacts.solid text b -> Z.of_nat (List.length text) < 2 ^ 31 -> (exists w, In w connectors /\ occurs w (between text a b)) ->
  exists m rest, (rs <- tz_refine [a; b] text ;; rs <- mdt_refine rs text ;; mdr_refine rs text) = Ret (m :: rest) /\ toDate m = Ret (bs (written ta ++ " - " ++ written (later ta tb))%string).
Proof.
  intros Za Zb Ca Cb Ma Mb Ea Eb Da Db Ra Rb Ta Tb Sa Sb L Cn. rewrite tz_refine_total. cbn [bind map]. rewrite Ca, Cb.
  pose proof (proj1 (tz_one_spec text a) Za) as S1. pose proof (proj1 (tz_one_spec text b) Zb) as S2. cbv zeta in S1, S2.
  set (a' := res_copy (tz_one tz_re text a)) in *. set (b' := res_copy (tz_one tz_re text b)) in *.
  destruct (same_stops _ _ S1) as (P1 & P2 & P3). destruct (same_stops _ _ S2) as (Q1 & Q2 & Q3).
  destruct S1 as (_ & _ & _ & V1 & H1 & _ & G1). destruct S2 as (_ & _ & _ & V2 & H2 & _ & G2).
  assert (Nb : isEmpty b' = false). { destruct Sb as (_ & Sb & _). apply filled_nonempty. intros E. unfold textLength in Q3, Sb. rewrite E in Q3. cbn [List.length] in Q3. clear - Q3 Sb. lia. }
  rewrite (mdt_hours text a' b'); [|rewrite V1; exact Ma|rewrite V2; exact Mb|exact Nb]. cbn [bind].
  destruct (mdr_linked text (res_copy a') (res_copy b') ta tb) as (m & rest & Em & Rg); auto.
  - unfold MergeFacts.solid. change (starts (res_copy a')) with (starts a'). change (stops (res_copy a')) with (stops a'). change (textLength (res_copy a')) with (textLength a'). rewrite P1, P2, P3. exact Sa.
  - unfold MergeFacts.solid. change (starts (res_copy b')) with (starts b'). change (stops (res_copy b')) with (stops b'). change (textLength (res_copy b')) with (textLength b'). rewrite Q1, Q2, Q3. exact Sb.
  - unfold linked. change (has_end (res_copy a')) with (has_end a'). change (has_end (res_copy b')) with (has_end b'). rewrite H1, H2. split; [exact Ea|]. split; [exact Eb|].
    unfold between in *. change (starts (res_copy b')) with (starts b'). change (stops (res_copy a')) with (stops a'). rewrite P1, Q2. exact Cn.
  - cbn [res_copy r_start]. rewrite V1. exact Da.
  - cbn [res_copy r_start]. rewrite V2. exact Db.
  - exists m, rest. split; [exact Em|]. destruct Rg as (pa & pb & A1 & A2 & Rg). cbv zeta in Rg. cbn [r_start res_copy] in A1, A2. rewrite V1, (pc_date_denotes _ _ Da Ra) in A1. rewrite V2, (pc_date_denotes _ _ Db Rb) in A2.
    injection A1 as <-. injection A2 as <-. rewrite moment_order in Rg. unfold later.
    assert (Ga : forall v, r_tags (res_copy (res_copy a')) TExtractTZ = Some v -> v = false).
    { intros v Ev. cbn [r_tags res_copy] in Ev. specialize (G1 TExtractTZ). rewrite Ta, tag_is_tags, Ev in G1. exact G1. }
    assert (Gc : forall x, tag_is TExtractTZ (res_copy x) = tag_is TExtractTZ x) by (intros x; rewrite !tag_is_tags; reflexivity).
    destruct (sec_count tb <? sec_count ta); destruct Rg as (M1 & M2 & M3 & _ & _ & _ & M4); cbn [r_start res_copy] in M1, M3.
    + apply toDate_range; auto; [rewrite M1, V1; exact Da|rewrite M4|rewrite M3, V1; exact Da].
      destruct (r_tags (res_copy (res_copy a')) TExtractTZ) as [v|]; [apply Ga; reflexivity|]. rewrite !Gc, G1, Ta. reflexivity.
    + apply toDate_range; auto; [rewrite M1, V1; exact Da|rewrite M4|rewrite M3, V2; exact Db].
      destruct (r_tags (res_copy (res_copy a')) TExtractTZ) as [v|]; [apply Ga; reflexivity|]. rewrite !Gc, G2, Tb. reflexivity.
Qed.

(** the time expression parser finds exactly two times; whatever the other parsers find lies inside one of them and is shorter *)
Definition only_times (e : env) (text : bytes) (ref : ptime) (pre c mid c2 : bytes) : Prop :=
  let first := Z.of_nat (List.length pre) in let past := first + Z.of_nat (List.length c) in let second := past + Z.of_nat (List.length mid) in let last := second + Z.of_nat (List.length c2) in
  (exists a b, x_res (execute e time_expression gwords_init text ref) = Ret [a; b]) /\
  forall q, In q other_parsers -> exists l, x_res (execute e q gwords_init text ref) = Ret l /\ forall r, In r l ->
     (first <= getIndex r < past - 1 /\ textLength r < Z.of_nat (List.length c)) \/ (second <= getIndex r < last - 1 /\ textLength r < Z.of_nat (List.length c2)).

Lemma connector_last v : In v connectors -> exists v0 x, v = v0 ++ [x] /\ (In x (bs "dh-") \/ (v0 = bs "t" /\ x = "o"%char)).
Proof.
  intros I. cbn in I. destruct I as [<-|[<-|[<-|[<-|[]]]]].
  - exists (bs "an"), "d"%char. split; [reflexivity|]. left. cbn. tauto.
  - exists (bs "t"), "o"%char. split; [reflexivity|]. right. split; reflexivity.
  - exists (bs "throug"), "h"%char. split; [reflexivity|]. left. cbn. tauto.
  - exists [], "-"%char. split; [reflexivity|]. left. cbn. tauto.
Qed.
Lemma blank_not x : is_space x = true -> ~ In x (bs "dh-otarfm").
Proof. intros H I. cbn in I. repeat (destruct I as [<-|I]; [vm_compute in H; discriminate H|]). contradiction. Qed.
(** a connecting word does not reach into the sign and the opening word before a time *)
Lemma connector_before z v b y lead intro : In v connectors -> lead_sign lead -> opening intro -> z ++ v ++ b = y ++ lead ++ intro -> (List.length (lead ++ intro) <= List.length b)%nat.
Proof.
  intros Iv Hl Op E. destruct (le_lt_dec (List.length (lead ++ intro)) (List.length b)) as [L|L]; [exact L|exfalso].
  destruct (connector_last v Iv) as (v0 & x & -> & Hx).
  assert (Q : exists s, lead ++ intro = s ++ x :: b /\ z ++ v0 = y ++ s).
  { set (w := lead ++ intro) in *. exists (firstn (List.length w - S (List.length b)) w).
    assert (E' : (z ++ v0) ++ x :: b = (y ++ firstn (List.length w - S (List.length b)) w) ++ skipn (List.length w - S (List.length b)) w) by (rewrite <- !app_assoc, firstn_skipn, <- E, <- !app_assoc; reflexivity).
    assert (Ls : List.length (x :: b) = List.length (skipn (List.length w - S (List.length b)) w)) by (rewrite skipn_length; cbn [List.length]; clear - L; lia).
    assert (Lz : List.length (z ++ v0) = List.length (y ++ firstn (List.length w - S (List.length b)) w)) by (apply (f_equal (@List.length ascii)) in E'; rewrite !app_length in E'; rewrite !app_length; cbn [List.length] in *; clear - E' Ls; lia).
    destruct (app_eq_length_head _ _ _ _ E' Lz) as [E1 E2]. split; [rewrite E2, firstn_skipn; reflexivity|exact E1]. }
  destruct Q as (s & Es & Ez).
  assert (Al : forall u, In u (lead ++ intro) -> is_space u = true \/ In u (bs "tafrom")).
  { intros u Iu. apply in_app_or in Iu as [Iu|Iu].
    - destruct Hl as [->|(l0 & -> & Hl)]; [contradiction|]. destruct Iu as [<-|[]]. destruct Hl as [Hl|Hl]; [left; exact Hl|right; rewrite Hl; cbn; tauto].
    - destruct Op as [->|(sp & B & [->| ->])]; [contradiction| |]; apply in_app_or in Iu as [Iu|Iu].
      + right. cbn in Iu |- *. tauto.
      + left. unfold blanks in B. rewrite Forall_forall in B. apply B. exact Iu.
      + right. cbn in Iu |- *. tauto.
      + left. unfold blanks in B. rewrite Forall_forall in B. apply B. exact Iu. }
  assert (Ix : In x (lead ++ intro)) by (rewrite Es; apply in_or_app; right; left; reflexivity).
  destruct Hx as [Hx|[-> ->]].
  - destruct (Al x Ix) as [B|B].
    + apply (blank_not x B). cbn in Hx |- *. tauto.
    + cbn in Hx. destruct Hx as [<-|[<-|[<-|[]]]]; cbn in B; repeat (destruct B as [B|B]; [discriminate B|]); contradiction.
  - assert (K : exists s0, s = s0 ++ bs "r").
    { clear Ez Al Ix L E. assert (Bn : forall sp s, blanks sp -> sp = s ++ "o"%char :: b -> False).
      { intros sp s' B ->. unfold blanks in B. rewrite Forall_forall in B. apply (blank_not "o"%char); [apply B; apply in_or_app; right; left; reflexivity|cbn; tauto]. }
      assert (Hi : forall s, intro = s ++ "o"%char :: b -> exists s0, s = s0 ++ bs "r").
      { intros s' Ei. destruct Op as [->|(sp & B & [->| ->])].
        - destruct s'; discriminate.
        - destruct s' as [|c1 s']; [discriminate|]. destruct s' as [|c2 s']; [discriminate|]. cbn in Ei. injection Ei as _ _ Ei. exfalso. exact (Bn _ _ B Ei).
        - destruct s' as [|c1 s']; [discriminate|]. destruct s' as [|c2 s']; [discriminate|]. destruct s' as [|c3 s']; [cbn in Ei; injection Ei as <- <- _; exists (bs "f"); reflexivity|].
          destruct s' as [|c4 s']; [discriminate|]. cbn in Ei. injection Ei as _ _ _ _ Ei. exfalso. exact (Bn _ _ B Ei). }
      destruct Hl as [->|(l0 & -> & Hl)]; [exact (Hi s Es)|]. destruct s as [|s1 s]; cbn in Es; injection Es as E1 E2; [exfalso; destruct Hl as [Hl|Hl]; subst; [vm_compute in Hl|]; discriminate|].
      destruct (Hi s E2) as (s0 & ->). exists (s1 :: s0). reflexivity. }
    destruct K as (s0 & ->). rewrite app_assoc in Ez. apply app_inj_tail in Ez as [_ Ez]. discriminate Ez.
Qed.

Lemma times_core e sortf text t us pre c k q mid c2 k2 q2 post h mi h2 mi2 : sane e -> is_sort sortf -> real_instant t us -> Z.of_nat (List.length text) < 2 ^ 31 ->
  to_lower text = pre ++ c ++ mid ++ c2 ++ post -> mid <> [] ->
  clock_words c k q -> clear_before pre -> clear_after q (mid ++ c2 ++ post) -> clock_time k h mi -> seconds_fine k -> on_clock (ck_mark k) h < 24 -> ~ zone_follows (mid ++ c2 ++ post) ->
  clock_words c2 k2 q2 -> clear_before (pre ++ c ++ mid) -> clear_after q2 post -> clock_time k2 h2 mi2 -> seconds_fine k2 -> on_clock (ck_mark k2) h2 < 24 -> ~ zone_follows post ->
  only_times e text (ptime_of t us) pre c mid c2 ->
  exists a b, main e sortf gwords_init text (ptime_of t us) = (rs <- (rs <- tz_refine [a; b] (to_lower text) ;; rs <- mdt_refine rs (to_lower text) ;; mdr_refine rs (to_lower text)) ;; show rs) /\
    no_zone (to_lower text) a /\ no_zone (to_lower text) b /\ res_copy a = a /\ res_copy b = b /\ is_certain Hour (r_start a) = true /\ is_certain Hour (r_start b) = true /\
    has_end a = false /\ has_end b = false /\ denotes (r_start a) (clock_moment t k h mi) /\ denotes (r_start b) (clock_moment t k2 h2 mi2) /\
    real_moment (clock_moment t k h mi) /\ real_moment (clock_moment t k2 h2 mi2) /\ tag_is TExtractTZ a = false /\ tag_is TExtractTZ b = false /\
    MergeFacts.solid (to_lower text) a /\ MergeFacts.solid (to_lower text) b /\ stops a <= starts b /\
    ((exists g u, (g = [] \/ g = bs " ") /\ mid ++ c2 ++ post = g ++ u /\ skipn (Z.to_nat (stops a)) (to_lower text) = u /\ stops a = Z.of_nat (List.length (pre ++ c)) + Z.of_nat (List.length g)) \/
     (exists d, ender d = true /\ skipn (Z.to_nat (stops a)) (to_lower text) = d :: mid ++ c2 ++ post /\ stops a = Z.of_nat (List.length (pre ++ c)) - 1)) /\
    exists lead intro, lead_sign lead /\ opening intro /\ (exists y, pre ++ c ++ mid = y ++ lead ++ intro) /\ starts b = Z.of_nat (List.length (pre ++ c ++ mid)) - Z.of_nat (List.length (lead ++ intro)).
Proof.
  intros He Hs H Hn E Nm Cw Cb Ca Ct Sf H24 Nz Cw2 Cb2 Ca2 Ct2 Sf2 H242 Nz2 [(ra & rb & Et) Al].
  assert (Hn2 : Z.of_nat (List.length text) < 2 ^ 32) by (clear - Hn; lia).
  destruct (words_start _ _ _ Cw) as (c0 & c' & Ec & Hc0). destruct (words_start _ _ _ Cw2) as (c02 & c2' & Ec2 & Hc02).
  assert (Lm : (1 <= List.length mid)%nat) by (destruct mid; [congruence|cbn [List.length]; clear; lia]).
  assert (Lc : (1 <= List.length c)%nat) by (rewrite Ec; cbn [List.length]; clear; lia).
  assert (Lc2 : (1 <= List.length c2)%nat) by (rewrite Ec2; cbn [List.length]; clear; lia).
  assert (E2 : to_lower text = (pre ++ c ++ mid) ++ c2 ++ post) by (rewrite E, <- !app_assoc; reflexivity).
  destruct (clock_stands e gwords_init text t us _ pre c k q (mid ++ c2 ++ post) h mi He H Hn2 E Cw Cb Ca Ct Sf Et)
    as (a & y & lead & intro & gap & rest & Ia & Ey & Hl & Op & Ep & Hg & Ix & Tx & En & At & T1 & T2).
  destruct (clock_stands e gwords_init text t us _ (pre ++ c ++ mid) c2 k2 q2 post h2 mi2 He H Hn2 E2 Cw2 Cb2 Ca2 Ct2 Sf2 Et)
    as (b & y2 & lead2 & intro2 & gap2 & rest2 & Ib & Ey2 & Hl2 & Op2 & Ep2 & Hg2 & Ix2 & Tx2 & En2 & At2 & T12 & T22).
  assert (Hgap : gap = [] \/ gap = bs " ") by (rewrite Hg; destruct (mid ++ c2 ++ post) as [|b0 post0]; [auto|]; cbn; destruct (Ascii.eqb b0 " "); auto).
  assert (Hgap2 : gap2 = [] \/ gap2 = bs " ") by (rewrite Hg2; destruct post as [|b0 post0]; [auto|]; cbn; destruct (Ascii.eqb b0 " "); auto).
  assert (Ly : Z.of_nat (List.length pre) = getIndex a + Z.of_nat (List.length lead) + Z.of_nat (List.length intro)) by (rewrite Ix; apply (f_equal (@List.length ascii)) in Ey; rewrite !app_length in Ey; clear - Ey; lia).
  assert (Ly2 : Z.of_nat (List.length pre) + Z.of_nat (List.length c) + Z.of_nat (List.length mid) = getIndex b + Z.of_nat (List.length lead2) + Z.of_nat (List.length intro2)) by (rewrite Ix2; apply (f_equal (@List.length ascii)) in Ey2; rewrite !app_length in Ey2; clear - Ey2; lia).
  assert (Ll : Z.of_nat (List.length lead) <= 1) by (destruct Hl as [->|(x & -> & _)]; cbn [List.length]; clear; lia).
  assert (Ll2 : Z.of_nat (List.length lead2) <= 1) by (destruct Hl2 as [->|(x & -> & _)]; cbn [List.length]; clear; lia).
  assert (Lt : textLength a = Z.of_nat (List.length intro) + Z.of_nat (List.length c) + Z.of_nat (List.length gap)) by (unfold textLength; rewrite Tx, !app_length; clear; lia).
  assert (Lt2 : textLength b = Z.of_nat (List.length intro2) + Z.of_nat (List.length c2) + Z.of_nat (List.length gap2)) by (unfold textLength; rewrite Tx2, !app_length; clear; lia).
  assert (Lg : Z.of_nat (List.length gap) <= 1) by (destruct Hgap as [-> | ->]; cbn [List.length]; clear; vm_compute; discriminate).
  assert (Ne : a <> b).
  { intros Q. subst b. assert (Q1 : textLength a = textLength a) by reflexivity. rewrite Lt in Q1 at 1. rewrite Lt2 in Q1.
    assert (G1 : gap = bs " " /\ gap2 = []). { destruct Hgap as [-> | ->], Hgap2 as [-> | ->]; cbn [List.length] in Q1, Lt; change (List.length (bs " ")) with 1%nat in *; (split; [|]); try reflexivity; exfalso; clear - Q1 Ly Ly2 Ll Ll2 Lm Lc Lc2; lia. }
    destruct G1 as [-> ->]. rewrite Tx2, app_nil_r in Tx. destruct (words_end _ _ _ Cw2) as (a0 & d & Ed & Hd). rewrite Ed in Tx. rewrite !app_assoc in Tx. change (bs " ") with [" "%char] in Tx. apply app_inj_tail in Tx as [_ Tx]. subst d. vm_compute in Hd. discriminate Hd. }
  assert (It0 : In time_expression parsers) by (cbn; tauto).
  pose proof (C13_results_in_order _ _ _ _ _ _ He (in_all _ It0) Hn2 Et) as O.
  assert (Lo : List.length (to_lower text) = List.length text) by (unfold to_lower; apply map_length).
  assert (Two : ra = a /\ rb = b /\ getIndex a + textLength a <= getIndex b /\ getIndex b + textLength b <= Z.of_nat (List.length text)).
  { inversion O as [|x l O1 O2 O3 O4]; subst. inversion O4 as [|x l P1 P2 P3 P4]; subst. pose proof (proj2 (O3 rb (or_introl eq_refl))) as Q3.
    destruct Ia as [Ia|[Ia|[]]], Ib as [Ib|[Ib|[]]]; subst; try congruence; [repeat split; try assumption; clear - Q3; lia|]. exfalso. clear - Q3 Ly Ly2 Lt Lt2 Ll Ll2 Lm Lc Lc2. lia. }
  destruct Two as (-> & -> & Apart & Sl).
  assert (A : exists rs, all_alone e parsers text (ptime_of t us) = Ret rs).
  { assert (Q : exists rss, Forall2 (fun p l => alone e p text (ptime_of t us) = Ret l) parsers rss).
    { assert (Al' : forall p, In p parsers -> exists l, alone e p text (ptime_of t us) = Ret l).
      { intros q0 Iq. apply others in Iq as [<-|Iq]; [eexists; exact Et|]. destruct (Al q0 Iq) as (l & El & _). eexists; exact El. }
      revert Al'. clear. generalize parsers as ps. induction ps as [|p ps IH]; intros Al; [exists []; constructor|]. destruct (Al p (or_introl eq_refl)) as (l & El).
      destruct IH as [rss F]; [intros q' I'; apply Al; right; exact I'|]. exists (l :: rss). constructor; assumption. }
    destruct Q as [rss F]. exists (List.concat rss). apply all_alone_ret. eauto. }
  destruct A as [rs A]. assert (It' : In time_expression parsers) by (cbn; tauto).
  assert (Iar : In a rs) by (apply (all_alone_in _ _ _ _ _ A); exists time_expression, [a; b]; split; [exact It'|split; [exact Et|left; reflexivity]]).
  assert (Ibr : In b rs) by (apply (all_alone_in _ _ _ _ _ A); exists time_expression, [a; b]; split; [exact It'|split; [exact Et|right; left; reflexivity]]).
  exists a, b. split.
  { apply (main_two e sortf text (ptime_of t us) rs a b He Hs A Iar Ibr Apart).
    intros r Irr. apply (all_alone_in _ _ _ _ _ A) in Irr as (p0 & l0 & Ip0 & X0 & Il0). apply others in Ip0 as [<-|Ip0].
    - unfold alone in X0. rewrite Et in X0. apply RelativeFacts.ret_inj in X0. subst l0. destruct Il0 as [<-|[<-|[]]]; auto.
    - destruct (Al p0 Ip0) as (l1 & El1 & B1). unfold alone in X0. rewrite El1 in X0. apply RelativeFacts.ret_inj in X0. subst l1. destruct (B1 r Il0) as [(B2 & B3)|(B2 & B3)].
      + right. right. left. rewrite Lt. clear - B2 B3 Ly Ll Lc. lia.
      + right. right. right. rewrite Lt2. clear - B2 B3 Ly2 Ll2 Lc2. lia. }
  assert (Cp : forall x, In x rs -> res_copy x = x).
  { intros x Ixx. apply (all_alone_in _ _ _ _ _ A) in Ixx as (p0 & l & Ip0 & Xp & Il). pose proof (execute_copies _ _ _ _ _ _ Xp) as E0.
    clear - E0 Il. induction l as [|y0 l IH]; [contradiction|]. cbn [map] in E0. injection E0 as E1 E2. destruct Il as [<-|Il]; auto. }
  split; [apply (clock_no_zone (to_lower text) y lead intro c k q gap (mid ++ c2 ++ post) rest); auto; [rewrite E, Ey; reflexivity|apply Ca]|].
  split; [apply (clock_no_zone (to_lower text) y2 lead2 intro2 c2 k2 q2 gap2 post rest2); auto; [rewrite E2, Ey2; reflexivity|apply Ca2]|].
  split; [exact (Cp a Iar)|]. split; [exact (Cp b Ibr)|]. split; [destruct At as (A1 & _); apply A1|]. split; [destruct At2 as (A1 & _); apply A1|]. split; [exact En|]. split; [exact En2|].
  split; [apply at_time_denotes; assumption|]. split; [apply at_time_denotes; assumption|]. split; [eapply clock_real; eassumption|]. split; [eapply clock_real; eassumption|].
  split; [apply (C73_no_refiner_tag e time_expression gwords_init text (ptime_of t us) _ a TExtractTZ He (in_all _ It') Et); [left; reflexivity|left; reflexivity]|].
  split; [apply (C73_no_refiner_tag e time_expression gwords_init text (ptime_of t us) _ b TExtractTZ He (in_all _ It') Et); [right; left; reflexivity|left; reflexivity]|].
  split; [unfold MergeFacts.solid, stops, OverlapFacts.starts; rewrite Lo; split; [rewrite Ix; clear; lia|]; split; [rewrite Lt; clear - Lc; lia|]; clear - Apart Sl Lt2; lia|].
  split; [unfold MergeFacts.solid, stops, OverlapFacts.starts; rewrite Lo; split; [rewrite Ix2; clear; lia|]; split; [rewrite Lt2; clear - Lc2; lia|]; exact Sl|].
  split; [exact Apart|]. split.
  - assert (Es : stops a = Z.of_nat (List.length y + List.length (intro ++ c ++ gap))) by (unfold stops, textLength; rewrite Ix, Tx; clear; lia).
    destruct Hl as [->|(x & -> & _)].
    + left. exists gap, rest. split; [exact Hgap|]. split; [exact Ep|]. split.
      * rewrite Es, Nat2Z.id. rewrite E, Ey, Ep. replace ((y ++ [] ++ intro) ++ c ++ gap ++ rest) with ((y ++ intro ++ c ++ gap) ++ rest) by (rewrite <- !app_assoc; reflexivity).
        replace (List.length y + List.length (intro ++ c ++ gap))%nat with (List.length (y ++ intro ++ c ++ gap) + 0)%nat by (rewrite !app_length; clear; lia). rewrite skip_tail. reflexivity.
      * rewrite Es, Ey, !app_length. cbn [List.length]. clear. lia.
    + destruct Hgap as [-> | ->].
      * right. destruct (words_end _ _ _ Cw) as (a0 & d & Ed & Hd). exists d. split; [exact Hd|]. split.
        -- rewrite Es, Nat2Z.id. rewrite E, Ey. set (P := mid ++ c2 ++ post). rewrite Ed. replace ((y ++ [x] ++ intro) ++ (a0 ++ [d]) ++ P) with ((y ++ [x] ++ intro ++ a0) ++ d :: P) by (rewrite <- !app_assoc; reflexivity).
           replace (List.length y + List.length (intro ++ (a0 ++ [d]) ++ []))%nat with (List.length (y ++ [x] ++ intro ++ a0) + 0)%nat by (rewrite !app_length; cbn [List.length]; clear; lia). rewrite skip_tail. reflexivity.
        -- rewrite Es, Ey, !app_length. cbn [List.length]. clear. lia.
      * left. exists [], (mid ++ c2 ++ post). split; [left; reflexivity|]. split; [reflexivity|]. split.
        -- rewrite Es, Nat2Z.id. rewrite E, Ey. replace ((y ++ [x] ++ intro) ++ c ++ mid ++ c2 ++ post) with ((y ++ [x] ++ intro ++ c) ++ mid ++ c2 ++ post) by (rewrite <- !app_assoc; reflexivity).
           replace (List.length y + List.length (intro ++ c ++ bs " "))%nat with (List.length (y ++ [x] ++ intro ++ c) + 0)%nat by (rewrite !app_length; cbn [List.length]; clear; change (List.length (bs " ")) with 1%nat; lia). rewrite skip_tail. reflexivity.
        -- rewrite Es, Ey, !app_length. change (List.length (bs " ")) with 1%nat. cbn [List.length]. clear. lia.
  - exists lead2, intro2. split; [exact Hl2|]. split; [exact Op2|]. split; [exists y2; exact Ey2|]. unfold OverlapFacts.starts. rewrite !app_length. clear - Ly2. lia.
Qed.

(** C119.  A text contains two clock times, each standing clear as in C94, a connecting word ("and", "to", "through", "-") occurs between them, and nothing else is recognised.
    Then the program prints the range, on the reference date, from the first time to the second - or to the first again if the second is earlier. *)
Theorem C119_two_times_linked : forall e sortf text t us pre c k q mid c2 k2 q2 post h mi h2 mi2, sane e -> is_sort sortf -> real_instant t us -> Z.of_nat (List.length text) < 2 ^ 31 ->
  to_lower text = pre ++ c ++ mid ++ c2 ++ post -> mid <> [] ->
  clock_words c k q -> clear_before pre -> clear_after q (mid ++ c2 ++ post) -> clock_time k h mi -> seconds_fine k -> on_clock (ck_mark k) h < 24 -> ~ zone_follows (mid ++ c2 ++ post) ->
  clock_words c2 k2 q2 -> clear_before (pre ++ c ++ mid) -> clear_after q2 post -> clock_time k2 h2 mi2 -> seconds_fine k2 -> on_clock (ck_mark k2) h2 < 24 -> ~ zone_follows post ->
  (exists v, In v connectors /\ occurs v mid) -> only_times e text (ptime_of t us) pre c mid c2 ->
  main e sortf gwords_init text (ptime_of t us) = Ret (line (bs (written (clock_moment t k h mi) ++ " - " ++ written (later (clock_moment t k h mi) (clock_moment t k2 h2 mi2)))%string)).
Proof.
  intros e sortf text t us pre c k q mid c2 k2 q2 post h mi h2 mi2 He Hs H Hn E Nm Cw Cb Ca Ct Sf H24 Nz Cw2 Cb2 Ca2 Ct2 Sf2 H242 Nz2 (v & Iv & Ov) Al.
  destruct (times_core _ _ _ _ _ _ _ _ _ _ _ _ _ _ _ _ _ _ He Hs H Hn E Nm Cw Cb Ca Ct Sf H24 Nz Cw2 Cb2 Ca2 Ct2 Sf2 H242 Nz2 Al) as (a & b & M & Za & Zb & Ka & Kb & Ha & Hb & Ea & Eb & Da & Db & Ra & Rb & Ta & Tb & Sa & Sb & Ap & Sk & lead & intro & Hl & Op & (y & Ey) & Sx).
  assert (Lo : List.length (to_lower text) = List.length text) by (unfold to_lower; apply map_length).
  destruct (refined_hours_linked (to_lower text) a b (clock_moment t k h mi) (clock_moment t k2 h2 mi2)) as (m & rest & Em & Tm); auto; [rewrite Lo; exact Hn| |rewrite M, Em; cbn [bind show]; rewrite Tm; reflexivity].
  exists v. split; [exact Iv|]. destruct Ov as (p0 & q0 & Em).
  assert (Lb : (List.length (lead ++ intro) <= List.length q0)%nat) by (apply (connector_before (pre ++ c ++ p0) v q0 y); auto; rewrite <- Ey, Em, <- !app_assoc; reflexivity).
  assert (Lv : (1 <= List.length v)%nat) by (cbn in Iv; destruct Iv as [<-|[<-|[<-|[<-|[]]]]]; cbn; clear; lia).
  assert (Vs : exists x v', v = x :: v' /\ x <> " "%char) by (cbn in Iv; destruct Iv as [<-|[<-|[<-|[<-|[]]]]]; cbn; eexists; eexists; (split; [reflexivity|discriminate])).
  assert (Cut : forall (u w t0 : bytes) n, u = w ++ t0 -> (List.length w <= n)%nat -> exists z, firstn n u = w ++ z).
  { intros u w t0 n -> Ln. exists (firstn (n - List.length w) t0). rewrite firstn_app, firstn_all2 by exact Ln. reflexivity. }
  unfold between. replace (stops a <=? starts b) with true by (clear - Ap; lia). rewrite !app_length, Em, !app_length in Sx. rewrite app_length in Lb.
  destruct Sk as [(g & u & Hg & Eg & Es & Ls)|(d & Hd & Es & Ls)].
  - rewrite Es. destruct Hg as [-> | ->].
    + cbn [app] in Eg. destruct (Cut u (p0 ++ v) (q0 ++ c2 ++ post) (Z.to_nat (starts b - stops a))) as (z & Ez); [rewrite <- Eg, Em, <- !app_assoc; reflexivity| |rewrite Ez; exists p0, z; rewrite <- app_assoc; reflexivity].
      rewrite Ls, Sx, !app_length. cbn [List.length]. clear - Lb. lia.
    + destruct Vs as (x & v' & Ev & Nx). destruct p0 as [|x0 p0]; [exfalso; rewrite Em, Ev in Eg; cbn in Eg; injection Eg as Eg _; congruence|].
      rewrite Em in Eg. cbn in Eg. injection Eg as -> Eg. destruct (Cut u (p0 ++ v) (q0 ++ c2 ++ post) (Z.to_nat (starts b - stops a))) as (z & Ez); [rewrite <- Eg, <- !app_assoc; reflexivity| |rewrite Ez; exists p0, z; rewrite <- app_assoc; reflexivity].
      rewrite Ls, Sx, !app_length. change (List.length (bs " ")) with 1%nat. cbn [List.length]. clear - Lb. lia.
  - rewrite Es. destruct (Cut (d :: mid ++ c2 ++ post) (d :: p0 ++ v) (q0 ++ c2 ++ post) (Z.to_nat (starts b - stops a))) as (z & Ez); [rewrite Em; cbn; rewrite <- !app_assoc; reflexivity| |rewrite Ez; exists (d :: p0), z; cbn; rewrite <- app_assoc; reflexivity].
    rewrite Ls, Sx. cbn [List.length]. rewrite !app_length. clear - Lb. lia.
Qed.
Print Assumptions C119_two_times_linked.

(** C120.  The same two times without a connecting word between them: the program prints the first; the second is ignored. *)
Theorem C120_two_times_first : forall e sortf text t us pre c k q mid c2 k2 q2 post h mi h2 mi2, sane e -> is_sort sortf -> real_instant t us -> Z.of_nat (List.length text) < 2 ^ 31 ->
  to_lower text = pre ++ c ++ mid ++ c2 ++ post -> mid <> [] ->
  clock_words c k q -> clear_before pre -> clear_after q (mid ++ c2 ++ post) -> clock_time k h mi -> seconds_fine k -> on_clock (ck_mark k) h < 24 -> ~ zone_follows (mid ++ c2 ++ post) ->
  clock_words c2 k2 q2 -> clear_before (pre ++ c ++ mid) -> clear_after q2 post -> clock_time k2 h2 mi2 -> seconds_fine k2 -> on_clock (ck_mark k2) h2 < 24 -> ~ zone_follows post ->
  (forall v, In v connectors -> ~ occurs v mid) -> only_times e text (ptime_of t us) pre c mid c2 ->
  main e sortf gwords_init text (ptime_of t us) = Ret (line (bs (written (clock_moment t k h mi)))).
Proof.
  intros e sortf text t us pre c k q mid c2 k2 q2 post h mi h2 mi2 He Hs H Hn E Nm Cw Cb Ca Ct Sf H24 Nz Cw2 Cb2 Ca2 Ct2 Sf2 H242 Nz2 Nc Al.
  destruct (times_core _ _ _ _ _ _ _ _ _ _ _ _ _ _ _ _ _ _ He Hs H Hn E Nm Cw Cb Ca Ct Sf H24 Nz Cw2 Cb2 Ca2 Ct2 Sf2 H242 Nz2 Al) as (a & b & M & Za & Zb & Ka & Kb & Ha & Hb & Ea & Eb & Da & Db & Ra & Rb & Ta & Tb & Sa & Sb & Ap & Sk & lead & intro & Hl & Op & (y & Ey) & Sx).
  assert (Lo : List.length (to_lower text) = List.length text) by (unfold to_lower; apply map_length).
  destruct (refined_hours (to_lower text) a b (clock_moment t k h mi)) as (m & rest & Em & Tm); auto; [rewrite Lo; exact Hn| |rewrite M, Em; cbn [bind show]; rewrite Tm; reflexivity].
  intros v Iv. unfold between. replace (stops a <=? starts b) with true by (clear - Ap; lia). rewrite !app_length in Sx.
  assert (Sub : forall (n : nat) (u : bytes), occurs v (firstn n u) -> occurs v u) by (intros n u (p0 & q0 & Eo); exists p0, (q0 ++ skipn n u); rewrite <- (firstn_skipn n u) at 1; rewrite Eo, <- !app_assoc; reflexivity).
  assert (Cut : forall n (u t0 : bytes), (n <= List.length u)%nat -> firstn n (u ++ t0) = firstn n u) by (intros n u t0 Ln; rewrite firstn_app; replace (n - List.length u)%nat with 0%nat by (clear - Ln; lia); rewrite firstn_O, app_nil_r; reflexivity).
  destruct Sk as [(g & u & Hg & Eg & Es & Ls)|(d & Hd & Es & Ls)].
  - rewrite Es. destruct Hg as [-> | ->].
    + cbn [app] in Eg. rewrite <- Eg. rewrite Cut; [|rewrite Ls, Sx, !app_length; cbn [List.length]; clear; lia]. intros O. exact (Nc v Iv (Sub _ _ O)).
    + destruct mid as [|x0 mid]; [congruence|]. cbn in Eg. injection Eg as -> Eg. rewrite <- Eg. rewrite Cut; [|rewrite Ls, Sx, !app_length; change (List.length (bs " ")) with 1%nat; cbn [List.length]; clear; lia].
      intros O. apply Sub in O. destruct O as (p0 & q0 & Eo). apply (Nc v Iv). exists (" "%char :: p0), q0. rewrite Eo. reflexivity.
  - rewrite Es. change (d :: mid ++ c2 ++ post) with ((d :: mid) ++ c2 ++ post). rewrite Cut; [|rewrite Ls, Sx, !app_length; cbn [List.length]; clear; lia].
    intros O. apply Sub in O. revert O. apply (no_connector_end d mid Hd); auto.
    destruct Ca as (St & _). destruct mid as [|x0 mid]; [congruence|]. cbn [app clock_stop] in St |- *. destruct St as (S1 & S2 & S3). split; [exact S1|]. split; [exact S2|]. intros Dx d0 r' Er. apply (S3 Dx d0 (r' ++ c2 ++ post)). rewrite Er. reflexivity.
Qed.
Print Assumptions C120_two_times_first.

(** the hypotheses are met *)
Definition times_only (e : env) (text : bytes) (ref : ptime) (pre c mid c2 : bytes) : bool :=
  let first := Z.of_nat (List.length pre) in let past := first + Z.of_nat (List.length c) in let second := past + Z.of_nat (List.length mid) in let last := second + Z.of_nat (List.length c2) in
  match x_res (execute e time_expression gwords_init text ref) with Ret [_; _] => true | _ => false end &&
  forallb (fun q => match x_res (execute e q gwords_init text ref) with
    | Ret l => forallb (fun r => (first <=? getIndex r) && (getIndex r <? past - 1) && (textLength r <? Z.of_nat (List.length c)) || (second <=? getIndex r) && (getIndex r <? last - 1) && (textLength r <? Z.of_nat (List.length c2))) l
    | _ => false end) other_parsers.
Lemma times_only_ok e text ref pre c mid c2 : times_only e text ref pre c mid c2 = true -> only_times e text ref pre c mid c2.
Proof.
  unfold times_only, only_times. generalize other_parsers. intros ps H. apply andb_prop in H as [H1 H2]. cbv zeta in *. split.
  - destruct (x_res (execute e time_expression gwords_init text ref)) as [[|a [|b [|]]]| | | |]; try discriminate. exists a, b. reflexivity.
  - intros q Iq. rewrite forallb_forall in H2. specialize (H2 q Iq). destruct (x_res (execute e q gwords_init text ref)) as [l| | | |]; try discriminate. exists l. split; [reflexivity|].
    intros r Ir. rewrite forallb_forall in H2. specialize (H2 r Ir). clear - H2. lia.
Qed.
Lemma case_words_six : clock_words (bs "6:30 pm") (Clock (bs "6") (bs "30") [] Pm) (bs " pm").
Proof.
  exists (bs ":30"). split; [reflexivity|]. split; [exists 6; apply (hs_digits (bs "6")); [repeat constructor|cbn; lia]|]. split; [apply (mp_minutes _ (bs ":") (bs "30")); [right; left; reflexivity|repeat constructor|cbn; lia]|].
  split; [cbn; lia|]. right. exists (bs " "), "pm". split; [reflexivity|]. split; [repeat constructor|cbn; tauto].
Qed.
Lemma half_past_six : clock_time (Clock (bs "6") (bs "30") [] Pm) 6 30.
Proof. split; [apply (ts_minutes (bs "6") (bs "30") 6); [apply (hs_digits (bs "6")); [repeat constructor|cbn; lia]|repeat constructor|cbn; lia]|]; cbn; lia. Qed.
Definition two_times_case (text pre mid post : bytes) : Prop := let t := Moment (Cal 2024 2 27) 9 15 0 in let k := Clock (bs "5") (bs "30") [] Pm in let k2 := Clock (bs "6") (bs "30") [] Pm in let c := bs "5:30 pm" in let c2 := bs "6:30 pm" in
  real_instant t 3 /\ to_lower text = pre ++ c ++ mid ++ c2 ++ post /\ mid <> [] /\
  clock_words c k (bs " pm") /\ clear_before pre /\ clear_after (bs " pm") (mid ++ c2 ++ post) /\ clock_time k 5 30 /\ seconds_fine k /\ on_clock (ck_mark k) 5 < 24 /\ ~ zone_follows (mid ++ c2 ++ post) /\
  clock_words c2 k2 (bs " pm") /\ clear_before (pre ++ c ++ mid) /\ clear_after (bs " pm") post /\ clock_time k2 6 30 /\ seconds_fine k2 /\ on_clock (ck_mark k2) 6 < 24 /\ ~ zone_follows post /\
  only_times strict_env text (ptime_of t 3) pre c mid c2.
Example C119_case : two_times_case (bs "Meet at 5:30 PM, and again at 6:30 PM, ok") (bs "meet at ") (bs ", and again at ") (bs ", ok") /\ (exists v, In v connectors /\ occurs v (bs ", and again at ")) /\
  main strict_env sort_stable gwords_init (bs "Meet at 5:30 PM, and again at 6:30 PM, ok") (ptime_of (Moment (Cal 2024 2 27) 9 15 0) 3) = Ret (line (bs "2024-Feb-27 17:30:00 - 2024-Feb-27 18:30:00")).
Proof.
  split; [|split; [exists (bs "and"); split; [cbn; tauto|exists (bs ", "), (bs " again at "); reflexivity]|vm_compute; reflexivity]].
  unfold two_times_case. cbv zeta. split; [inst|]. split; [reflexivity|]. split; [discriminate|]. split; [exact case_words|].
  split; [apply (clear_letter (bs "meet a") "t"%char (bs " ")); [repeat constructor|discriminate|reflexivity|cbn; intuition discriminate]|].
  split; [apply (clear_sign (bs " pm") ","%char (bs " and again at 6:30 pm, ok")); [discriminate|reflexivity|reflexivity|cbn; intuition discriminate]|].
  split; [exact half_past_five|]. split; [left; reflexivity|]. split; [reflexivity|]. split; [apply (no_zone_comma (bs " and again at 6:30 pm, ok"))|]. split; [exact case_words_six|].
  split; [apply (clear_letter (bs "meet at 5:30 pm, and again a") "t"%char (bs " ")); [repeat constructor|discriminate|reflexivity|cbn; intuition discriminate]|].
  split; [exact comma_after|]. split; [exact half_past_six|]. split; [left; reflexivity|]. split; [reflexivity|]. split; [exact comma_no_zone|].
  apply times_only_ok. vm_compute. reflexivity.
Qed.
Example C120_case : two_times_case (bs "Meet at 5:30 PM, or at 6:30 PM, ok") (bs "meet at ") (bs ", or at ") (bs ", ok") /\ (forall v, In v connectors -> ~ occurs v (bs ", or at ")) /\
  main strict_env sort_stable gwords_init (bs "Meet at 5:30 PM, or at 6:30 PM, ok") (ptime_of (Moment (Cal 2024 2 27) 9 15 0) 3) = Ret (line (bs "2024-Feb-27 17:30:00")).
Proof.
  split; [|split; [intros v Iv; cbn in Iv; destruct Iv as [<-|[<-|[<-|[<-|[]]]]]; apply Alphabet.containsb_ok; vm_compute; reflexivity|vm_compute; reflexivity]].
  unfold two_times_case. cbv zeta. split; [inst|]. split; [reflexivity|]. split; [discriminate|]. split; [exact case_words|].
  split; [apply (clear_letter (bs "meet a") "t"%char (bs " ")); [repeat constructor|discriminate|reflexivity|cbn; intuition discriminate]|].
  split; [apply (clear_sign (bs " pm") ","%char (bs " or at 6:30 pm, ok")); [discriminate|reflexivity|reflexivity|cbn; intuition discriminate]|].
  split; [exact half_past_five|]. split; [left; reflexivity|]. split; [reflexivity|]. split; [apply (no_zone_comma (bs " or at 6:30 pm, ok"))|]. split; [exact case_words_six|].
  split; [apply (clear_letter (bs "meet at 5:30 pm, or a") "t"%char (bs " ")); [repeat constructor|discriminate|reflexivity|cbn; intuition discriminate]|].
  split; [exact comma_after|]. split; [exact half_past_six|]. split; [left; reflexivity|]. split; [reflexivity|]. split; [exact comma_no_zone|].
  apply times_only_ok. vm_compute. reflexivity.
Qed.
