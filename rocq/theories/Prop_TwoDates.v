(** * Two dates in one text: joined by a connecting word (C109), or not (C110) *)
From Verif Require Import Base Regex RegexParse Calendar Components Utils Execute Spec View ParserSpec PhraseSpec MiddleSpec CalendarCycle CalendarFacts RegexFacts ResultFacts
  ExecuteFacts ParserRe MatchFacts LocateFacts HistoryFacts ParserFacts CasualFacts ISOShape ZoneFacts MergeFacts FoundFacts OverlapFacts P_CasualDate P_ISO P_Holiday P_MiddleEndian MiddleFacts Prop_Casual Prop_Holiday Prop_Middle Prop_Found Refiners Main Prop_Execute Prop_Refine Prop_Tags
  MainFacts Prop_Main Prop_Answers Prop_Format Prop_Sentence Prop_DateTime Prop_Range Prop_MonthText Prop_MonthTime Prop_MonthClock.
From Coq Require Import ZifyBool ZifyNat ZifyN.
Open Scope string_scope.
Open Scope list_scope.
Open Scope Z_scope.

(** [w], standing between [pre] and [post], is a date that the parser [p] recognises, with a certain day, and [M] holds of the moment that is meant: a casual date, an ISO date or a
    holiday as in C92, or a plainly written month-day date as in C98 *)
Inductive dated (t : moment) : parser -> bytes -> bytes -> bytes -> (moment -> Prop) -> Prop :=
| dt_phrase p pre w post m : In p [casual_date; iso; holiday] -> separate pre post -> phrase_says t p pre w post m -> dated t p pre w post (fun m' => m' = m)
| dt_month_day pre tx x post : plain_month_day tx x -> md_to x = None -> 1 <= md_day x <= 31 -> next_word post -> (forall a b, pre = a ++ [b] -> is_word b = false) -> no_weekday_before pre (tx ++ post) ->
    dated t middle_endian pre tx post (fun m' => exists y, year_meant t x y /\ m' = Moment (Cal y (md_month x) (md_day x)) 0 0 0).

Lemma dated_found e text t us p pre w post M l : sane e -> real_instant t us -> neighbours (mdate t) -> Z.of_nat (List.length text) < 2 ^ 32 ->
  to_lower text = pre ++ w ++ post -> dated t p pre w post M -> alone e p text (ptime_of t us) = Ret l ->
  exists m, M m /\ (real_moment m -> exists r s b, In r l /\ stands r pre (w ++ s) /\ blanks s /\ post = s ++ b /\ has_end r = false /\ denotes (r_start r) m /\ is_certain Month (r_start r) = true /\ tag_is TTimeExpression r = false).
Proof.
  intros He H N Hn E D El. destruct D as [p pre w post m Ip Sp Ps|pre tx x post P Nr Hd NW Sa Nw].
  - exists m. split; [reflexivity|]. intros Rm. change (In p firm) in Ip. pose proof (plain_in p (firm_plain _ Ip)) as Jp.
    destruct (phrase_found e text t us p pre w post m l He H N Hn E Sp Ps Rm El) as (a & s & Ia & Sa & Bs & Ea & Da).
    pose proof (firm_month e text t us p pre w post m l a s He H N Hn E Sp Ps Ip El Ia Sa) as Ma.
    assert (Lo : firstn (Z.to_nat (textLength a)) (skipn (Z.to_nat (getIndex a)) (to_lower text)) = r_text a).
    { apply (C14_located e p gwords_init text (ptime_of t us) l a He (in_all _ Jp)); auto; intros ->; cbn in Ip; destruct Ip as [X|[X|[X|[]]]]; discriminate X. }
    pose proof Sa as [S1 S2]. unfold textLength in Lo. rewrite S1, S2, !Nat2Z.id, E, skipn_app, skipn_all2 in Lo by (clear; lia). rewrite Nat.sub_diag in Lo. cbn [skipn app] in Lo.
    rewrite app_length, firstn_app, firstn_all2 in Lo by (clear; lia). apply app_inv_head in Lo. replace (List.length w + List.length s - List.length w)%nat with (List.length s) in Lo by (clear; lia).
    exists a, s, (skipn (List.length s) post). split; [exact Ia|]. split; [exact Sa|]. split; [exact Bs|]. split; [rewrite <- Lo at 1; rewrite firstn_skipn; reflexivity|]. split; [exact Ea|]. split; [exact Da|]. split; [exact Ma|].
    exact (plain_untimed e p text _ l a He (firm_plain _ Ip) El Ia).
  - destruct (month_day_result e text t us pre tx x post l He H Hn P NW E Sa Nw Hd Nr El) as (y & r & Ym & I & St & En & D & _ & Mc & U).
    exists (Moment (Cal y (md_month x) (md_day x)) 0 0 0). split; [eauto|]. intros _. exists r, [], post. rewrite app_nil_r. repeat (split; [first [assumption|reflexivity|constructor]|]). exact U.
Qed.
Lemma dated_parser t p pre w post M : dated t p pre w post M -> In p parsers.
Proof. intros [p' ? ? ? ? Ip _ _|]; [exact (plain_in p' (firm_plain _ Ip))|exact in_parsers_me]. Qed.
Lemma dated_head t p pre w post M : dated t p pre w post M -> exists c v, w = c :: v /\ is_space c = false.
Proof.
  intros [p' pre' w' post' m Ip _ Ps|pre' tx x post' P _ _ _ _ _].
  - assert (Dg : forall x, is_digit x = true -> is_space x = false) by (intros x; destruct x as [[] [] [] [] [] [] [] []]; try reflexivity; discriminate).
    assert (Yh : forall yy mm dd r, date_loose yy mm dd -> exists c v, ymd_text yy mm dd ++ r = c :: v /\ is_space c = false).
    { intros yy mm dd r (D & L & _). destruct yy as [|c yy]; [discriminate L|]. inversion D; subst. eexists c, _. split; [reflexivity|]. auto. }
    assert (K : p' = casual_date \/ p' = iso \/ p' = holiday) by (cbn in Ip; destruct Ip as [<-|[<-|[<-|[]]]]; auto). clear Ip.
    inversion Ps; subst; try (eexists _, _; split; [reflexivity|reflexivity]); try (destruct K as [K|[K|K]]; discriminate K).
    + match goal with X : _ \/ _ |- _ => destruct X as [-> | ->] end; eexists _, _; split; reflexivity.
    + rewrite <- (app_nil_r (ymd_text yy mm dd)). eauto.
    + eauto.
    + assert (Q : forallb (fun x => match bs (fst x) with c :: _ => negb (is_space c) | [] => false end) plain_names = true) by (vm_compute; reflexivity). rewrite forallb_forall in Q.
      match goal with I : In (?z, ?q) plain_names |- _ => specialize (Q _ I) end. cbn [fst] in Q. destruct (bs x) as [|c0 v]; [discriminate Q|]. eexists c0, _. split; [reflexivity|]. destruct (is_space c0); [discriminate Q|reflexivity].
  - destruct (plain_head _ _ P) as (h & v & Ih & ->).
    assert (Q : forallb (fun h => match bs h with c :: _ => negb (is_space c) | [] => false end) heads = true) by (vm_compute; reflexivity). rewrite forallb_forall in Q. specialize (Q _ Ih).
    destruct (bs h) as [|c0 u]; [discriminate Q|]. eexists c0, _. split; [reflexivity|]. destruct (is_space c0); [discriminate Q|reflexivity].
Qed.

(** C109.  A text contains two dates of any of these kinds, a connecting word ("and", "to", "through" or "-") somewhere between them, and nothing else is recognised.  The program
    prints the range from the first to the second; if the second is the earlier one, it prints the first twice ([later]). *)
Theorem C109_two_dates_range : forall e sortf text t us p1 p2 pre w1 mid w2 post M1 M2 v, sane e -> is_sort sortf -> real_instant t us -> neighbours (mdate t) -> Z.of_nat (List.length text) < 2 ^ 31 ->
  to_lower text = pre ++ w1 ++ mid ++ w2 ++ post -> dated t p1 pre w1 (mid ++ w2 ++ post) M1 -> dated t p2 (pre ++ w1 ++ mid) w2 post M2 ->
  In v connectors -> occurs v mid -> only_two e text (ptime_of t us) p1 p2 pre w1 mid w2 ->
  exists m1 m2, M1 m1 /\ M2 m2 /\ (real_moment m1 -> real_moment m2 -> main e sortf gwords_init text (ptime_of t us) = Ret (line (bs (written m1 ++ " - " ++ written (later m1 m2))%string))).
Proof.
  intros e sortf text t us p1 p2 pre w1 mid w2 post M1 M2 v He Hs H N Hn E D1 D2 Iv Ov Al.
  assert (Hn2 : Z.of_nat (List.length text) < 2 ^ 32) by (clear - Hn; lia).
  assert (E2 : to_lower text = (pre ++ w1 ++ mid) ++ w2 ++ post) by (rewrite E, <- !app_assoc; reflexivity).
  pose proof (dated_parser _ _ _ _ _ _ D1) as J1. pose proof (dated_parser _ _ _ _ _ _ D2) as J2.
  destruct (Al p1 J1) as (l1 & El1 & _). destruct (Al p2 J2) as (l2 & El2 & _).
  destruct (dated_found e text t us p1 pre w1 _ M1 l1 He H N Hn2 E D1 El1) as (m1 & Hm1 & F1). destruct (dated_found e text t us p2 _ w2 post M2 l2 He H N Hn2 E2 D2 El2) as (m2 & Hm2 & F2).
  exists m1, m2. split; [exact Hm1|]. split; [exact Hm2|]. intros R1 R2.
  destruct (dated_head _ _ _ _ _ _ D1) as (c1 & v1 & Ew1 & _). destruct (dated_head _ _ _ _ _ _ D2) as (c2 & v2 & Ew2 & _).
  apply (range_core e sortf text (ptime_of t us) p1 p2 pre w1 mid w2 post m1 m2 v); auto; [rewrite Ew1; discriminate|rewrite Ew2; discriminate| |].
  - intros l El. unfold alone in El. rewrite El1 in El. apply RelativeFacts.ret_inj in El. subst l. destruct (F1 R1) as (r & s & b & I & St & Bs & Ep & En & D & Mc & U).
    destruct (blank_prefix s b mid v (w2 ++ post) Bs Ep Iv Ov) as (mid' & Em & Om). exists r, s, mid'. repeat (split; [assumption|]). exact U.
  - intros l El. unfold alone in El. rewrite El2 in El. apply RelativeFacts.ret_inj in El. subst l. destruct (F2 R2) as (r & s & b & I & St & Bs & Ep & En & D & Mc & U). exists r, s. repeat (split; [assumption|]). exact U.
Qed.
Print Assumptions C109_two_dates_range.

(** ** C110: without a connecting word, only the first date is answered *)
Theorem C110_first_date_only : forall e sortf text t us p1 p2 pre w1 mid w2 post M1 M2, sane e -> is_sort sortf -> real_instant t us -> neighbours (mdate t) -> Z.of_nat (List.length text) < 2 ^ 31 ->
  to_lower text = pre ++ w1 ++ mid ++ w2 ++ post -> dated t p1 pre w1 (mid ++ w2 ++ post) M1 -> dated t p2 (pre ++ w1 ++ mid) w2 post M2 ->
  (forall v, In v connectors -> ~ occurs v mid) -> only_two e text (ptime_of t us) p1 p2 pre w1 mid w2 ->
  exists m1 m2, M1 m1 /\ M2 m2 /\ (real_moment m1 -> real_moment m2 -> main e sortf gwords_init text (ptime_of t us) = Ret (line (bs (written m1)))).
Proof.
  intros e sortf text t us p1 p2 pre w1 mid w2 post M1 M2 He Hs H N Hn E D1 D2 Nc Al.
  assert (Hn2 : Z.of_nat (List.length text) < 2 ^ 32) by (clear - Hn; lia).
  assert (E2 : to_lower text = (pre ++ w1 ++ mid) ++ w2 ++ post) by (rewrite E, <- !app_assoc; reflexivity).
  pose proof (dated_parser _ _ _ _ _ _ D1) as J1. pose proof (dated_parser _ _ _ _ _ _ D2) as J2.
  destruct (Al p1 J1) as (l1 & El1 & _). destruct (Al p2 J2) as (l2 & El2 & _).
  destruct (dated_found e text t us p1 pre w1 _ M1 l1 He H N Hn2 E D1 El1) as (m1 & Hm1 & F1). destruct (dated_found e text t us p2 _ w2 post M2 l2 He H N Hn2 E2 D2 El2) as (m2 & Hm2 & F2).
  exists m1, m2. split; [exact Hm1|]. split; [exact Hm2|]. intros R1 R2.
  destruct (dated_head _ _ _ _ _ _ D1) as (c1 & v1 & Ew1 & _). destruct (dated_head _ _ _ _ _ _ D2) as (c2 & v2 & Ew2 & Sc2).
  apply (apart_core e sortf text (ptime_of t us) p1 p2 pre w1 mid w2 post m1); auto; [rewrite Ew1; discriminate|rewrite Ew2; discriminate| |].
  - intros l El. unfold alone in El. rewrite El1 in El. apply RelativeFacts.ret_inj in El. subst l. destruct (F1 R1) as (r & s & b & I & St & Bs & Ep & En & D & Mc & U).
    exists r, (List.length s). split; [exact I|]. split; [|auto]. destruct St as [S1 S2]. split; [exact S1|]. split; [unfold textLength; rewrite S2, app_length; reflexivity|].
    clear - Bs Ep Ew2 Sc2. revert mid Ep. induction Bs as [|x s Hx Bs IH]; intros mid Ep; [cbn; lia|]. destruct mid as [|y mid]; cbn [app] in Ep.
    + exfalso. rewrite Ew2 in Ep. cbn [app] in Ep. injection Ep as Ex _. congruence.
    + injection Ep as _ Ep. specialize (IH mid Ep). cbn [List.length]. lia.
  - intros l El. unfold alone in El. rewrite El2 in El. apply RelativeFacts.ret_inj in El. subst l. destruct (F2 R2) as (r & s & b & I & St & Bs & Ep & En & D & Mc & U).
    exists r, (List.length s). split; [exact I|]. split; [|auto]. destruct St as [S1 S2]. split; [exact S1|]. unfold textLength. rewrite S2, app_length. reflexivity.
Qed.
Print Assumptions C110_first_date_only.

(** ** Cases *)
Lemma same_cd q : In q parsers -> beq (p_pattern q) (p_pattern casual_date) = true -> q = casual_date.
Proof. intros I. apply same_firm; [cbn; tauto|exact I]. Qed.
Example C109_case : let t := Moment (Cal 2024 2 27) 9 15 0 in let text := bs "Away from Tomorrow to March 5 for fun" in let x := MonthDay None 3 5 None None in
  real_instant t 3 /\ neighbours (mdate t) /\ to_lower text = bs "away from " ++ bs "tomorrow" ++ bs " to " ++ bs "march 5 " ++ bs "for fun" /\
  dated t casual_date (bs "away from ") (bs "tomorrow") (bs " to " ++ bs "march 5 " ++ bs "for fun") (fun m => m = Moment (Cal 2024 2 28) 0 0 0) /\
  dated t middle_endian (bs "away from " ++ bs "tomorrow" ++ bs " to ") (bs "march 5 ") (bs "for fun") (fun m => exists y, year_meant t x y /\ m = Moment (Cal y (md_month x) (md_day x)) 0 0 0) /\
  In (bs "to") connectors /\ occurs (bs "to") (bs " to ") /\ only_two strict_env text (ptime_of t 3) casual_date middle_endian (bs "away from ") (bs "tomorrow") (bs " to ") (bs "march 5 ") /\
  main strict_env sort_stable gwords_init text (ptime_of t 3) = Ret (line (bs "2024-Feb-28 00:00:00 - 2024-Mar-05 00:00:00")).
Proof.
  cbv zeta. split; [inst|]. split; [exists (Cal 2024 2 26), (Cal 2024 2 28); inst|]. split; [reflexivity|].
  split; [apply dt_phrase; [cbn; tauto|apply separate_dec; reflexivity|apply ps_tomorrow; [auto|concrete]]|].
  assert (P : plain_month_day (bs "march 5 ") (MonthDay None 3 5 None None)) by (apply (plain_case (bs "march") 3 (bs "5")); [exists "march"; left; split; [cbn; tauto|reflexivity]|repeat constructor|cbn; lia]).
  split; [apply dt_month_day; [exact P|reflexivity|cbn; lia|apply no_confusion_ok; vm_compute; reflexivity|exact (last_sign (bs "away from tomorrow to") " "%char eq_refl)|]|].
  { apply (no_stems _ _ _ _ P eq_refl); [exact (last_sign (bs "away from tomorrow to") " "%char eq_refl)|vm_compute; reflexivity]. }
  split; [cbn; tauto|]. split; [exists (bs " "), (bs " "); reflexivity|].
  split; [apply two_only_ok; [exact same_cd|exact same_me|vm_compute; reflexivity]|vm_compute; reflexivity].
Qed.
Example C110_case : let t := Moment (Cal 2024 2 27) 9 15 0 in let text := bs "Tomorrow we pack; March 5 is fine" in let x := MonthDay None 3 5 None None in
  real_instant t 3 /\ neighbours (mdate t) /\ to_lower text = bs "" ++ bs "tomorrow" ++ bs " we pack; " ++ bs "march 5 " ++ bs "is fine" /\
  dated t casual_date (bs "") (bs "tomorrow") (bs " we pack; " ++ bs "march 5 " ++ bs "is fine") (fun m => m = Moment (Cal 2024 2 28) 0 0 0) /\
  dated t middle_endian (bs "" ++ bs "tomorrow" ++ bs " we pack; ") (bs "march 5 ") (bs "is fine") (fun m => exists y, year_meant t x y /\ m = Moment (Cal y (md_month x) (md_day x)) 0 0 0) /\
  (forall v, In v connectors -> ~ occurs v (bs " we pack; ")) /\ only_two strict_env text (ptime_of t 3) casual_date middle_endian (bs "") (bs "tomorrow") (bs " we pack; ") (bs "march 5 ") /\
  main strict_env sort_stable gwords_init text (ptime_of t 3) = Ret (line (bs "2024-Feb-28 00:00:00")).
Proof.
  cbv zeta. split; [inst|]. split; [exists (Cal 2024 2 26), (Cal 2024 2 28); inst|]. split; [reflexivity|].
  split; [apply dt_phrase; [cbn; tauto|apply separate_dec; reflexivity|apply ps_tomorrow; [auto|concrete]]|].
  assert (P : plain_month_day (bs "march 5 ") (MonthDay None 3 5 None None)) by (apply (plain_case (bs "march") 3 (bs "5")); [exists "march"; left; split; [cbn; tauto|reflexivity]|repeat constructor|cbn; lia]).
  split; [apply dt_month_day; [exact P|reflexivity|cbn; lia|apply no_confusion_ok; vm_compute; reflexivity|exact (last_sign (bs "tomorrow we pack;") " "%char eq_refl)|]|].
  { apply (no_stems _ _ _ _ P eq_refl); [exact (last_sign (bs "tomorrow we pack;") " "%char eq_refl)|vm_compute; reflexivity]. }
  split. { intros v Iv. cbn in Iv. destruct Iv as [<-|[<-|[<-|[<-|[]]]]]; apply Alphabet.containsb_ok; vm_compute; reflexivity. }
  split; [apply two_only_ok; [exact same_cd|exact same_me|vm_compute; reflexivity]|vm_compute; reflexivity].
Qed.
