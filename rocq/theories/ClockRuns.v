(** * ClockRuns: running the clock-time pattern on the phrases *)
From Verif Require Import Base Regex RegexFacts Symbolic Open ShapeRun Segments Spec View ParserSpec ClockSpec ParserRe AgoFacts RelativeRuns ClockFamily.
Open Scope string_scope.
Open Scope list_scope.
Open Scope nat_scope.

(** ** The same for actual texts *)
Definition lit (w : bytes) : list sitem := cased w w.
Definition dig (w : bytes) : list sitem := map (fun c => SC c "0"%char) w.
Definition te_ok (l : list sitem) : Prop := Forall (item_ok' true time_expression_re) l.
Lemma dig_text w : items_text (dig w) = w.
Proof. unfold dig. induction w as [|c w IH]; [reflexivity|]. cbn in *. f_equal. exact IH. Qed.
Lemma dig_ok w : digits w -> te_ok (dig w).
Proof. unfold dig. induction 1 as [|c w Hc D IH]; constructor; [apply (char_ok _ _ _ _ _ ck_digit Hc)|exact IH]. Qed.
Lemma spread_fine w : spaces w -> te_ok (spread w " ").
Proof. intros H. apply (spread_ok _ _ _ _ ck_blank H). Qed.
Lemma te_ok_app a b : te_ok a -> te_ok b -> te_ok (a ++ b).
Proof. intros A B. apply Forall_app. auto. Qed.

(** a part of a phrase: its pieces and captures belong to the family, and its text is [w] *)
Definition part (f : family) (w : bytes) (segs : list (list sitem)) (b : list (nat * list nat)) : Prop :=
  In (map (map shape_of) segs, b) f /\ Forall te_ok segs /\ items_text (List.concat segs) = w.
Lemma part_times f g w w' s s' b b' : part f w s b -> part g w' s' b' -> part (times f g) (w ++ w') (s ++ s') (b' ++ b).
Proof.
  intros (A & B & C) (A' & B' & C'). split; [rewrite map_app; apply (in_times f g (map (map shape_of) s, b) (map (map shape_of) s', b') A A')|]. split; [apply Forall_app; auto|].
  rewrite concat_app, items_text_app, C, C'. reflexivity.
Qed.
Lemma part_seg f w segs b p tl r ah o T : In r [r_hour; r_min; r_mark; r_to; RCat r_mark r_to] -> forallb (seg_on true tl r p (map shape_of ah)) f = true -> part f w segs b -> te_ok ah -> tail_ok tl T -> prev_ok p o ->
  exists o' q, takes true r o w (items_text ah ++ T) o' (caps_of segs b) /\ prev_ok (PWord q) o'.
Proof.
  intros Hr H (I & F & Tx) Ga HT Ho. rewrite forallb_forall in H. specialize (H _ I).
  assert (G : te_ok (List.concat segs)). { clear - F. induction F; cbn; [constructor|]. apply te_ok_app; assumption. }
  destruct (seg_ok true time_expression_re tl r p ah segs b o T (r_part r Hr) H G Ga HT Ho) as (o' & q & A & B). rewrite Tx in A. exists o', q. auto.
Qed.

Ltac in_family := apply member_in; vm_compute; reflexivity.
Ltac pieces := repeat first [apply Forall_nil | apply Forall_cons]; first [apply self_ok | apply dig_ok; repeat constructor; assumption | apply spread_fine; assumption | constructor].
Ltac text_of := cbn [List.concat]; rewrite ?items_text_app, ?app_nil_r; cbn [items_text map List.concat]; unfold lit; rewrite ?self_text, ?dig_text, ?spread_text; reflexivity.

Lemma spaced_spaces w : spaced w -> spaces w.
Proof. apply Forall_impl. intros c ->. reflexivity. Qed.
Lemma ok_lit w : te_ok (lit w). Proof. apply self_ok. Qed.
Lemma ok_nil : te_ok []. Proof. constructor. Qed.
Ltac one_piece := first [apply ok_nil | apply ok_lit | apply spread_fine; assumption | apply dig_ok; assumption].
Ltac all_pieces := repeat (apply Forall_cons; [one_piece|]); apply Forall_nil.

Lemma spread_shapes sp : sp <> [] -> map shape_of (spread sp " ") = sh_spaces.
Proof. destruct sp; [congruence|reflexivity]. Qed.
Lemma dig_shapes w : map shape_of (dig w) = sh_digits (List.length w).
Proof. unfold dig, sh_digits. induction w as [|c w IH]; [reflexivity|]. cbn. f_equal. exact IH. Qed.
Ltac shapes := cbn [map]; rewrite ?dig_shapes; repeat match goal with
  | |- context [spread ?sp " "] => is_var sp; destruct sp; cbn [spread map shape_of] end.

Lemma intro_part i : opening_phrase i -> exists a b, part f_intro i [a; b] [(1, [])].
Proof.
  intros [->|(sp & B & [-> | ->])]; try apply spaced_spaces in B.
  - exists [], []. split; [in_family|]. split; [all_pieces|reflexivity].
  - exists (lit (bs "at")), (spread sp " "). split; [shapes; in_family|]. split; [all_pieces|text_of].
  - exists (lit (bs "from")), (spread sp " "). split; [shapes; in_family|]. split; [all_pieces|text_of].
Qed.
Lemma hour_part h v : hour_says h v -> exists a, part f_hour h [a] [(2, [2])] /\ items_text a = h.
Proof.
  intros [| |w D L].
  - exists (lit (bs "noon")). split; [|reflexivity]. split; [in_family|]. split; [all_pieces|text_of].
  - exists (lit (bs "midnight")). split; [|reflexivity]. split; [in_family|]. split; [all_pieces|text_of].
  - exists (dig w). split; [|apply dig_text]. split; [|split; [all_pieces|text_of]]. shapes. revert L. generalize (List.length w). intros n L. destruct n as [|[|[|[|[|n]]]]]; try lia; in_family.
Qed.
Lemma min_part p mm ss : minutes_part colon_mark p mm ss -> List.length ss <> 1 -> exists a c e f b, part f_min p [a; dig mm; c; dig ss; e; f] b /\
  ((b = [] /\ mm = [] /\ ss = []) \/ (b = [(3, [1])] /\ ss = []) \/ b = [(4, [3]); (3, [1])] \/ b = [(5, [5]); (4, [3]); (3, [1])]).
Proof.
  intros [|a m A D L|a m b s f A D L B D' L' F] Ls.
  - exists [], [], [], [], []. split; [|auto]. split; [in_family|]. split; [all_pieces|reflexivity].
  - exists (lit a), [], [], [], [(3, [1])]. split; [|auto]. split; [|split; [all_pieces|text_of]]. shapes. revert L. generalize (List.length m). intros n L.
    destruct n as [|[|[|n]]]; try lia; destruct A as [->|[->| ->]]; in_family.
  - assert (E2 : List.length s = 2) by lia. destruct F as [->|(fr & -> & Df & Lf)].
    + exists (lit a), (lit b), [], [], [(4, [3]); (3, [1])]. split; [|auto]. split; [|split; [all_pieces|text_of]]. shapes. rewrite E2. revert L. generalize (List.length m). intros n L.
      destruct n as [|[|[|n]]]; try lia; destruct A as [->|[->| ->]], B as [->| ->]; in_family.
    + exists (lit a), (lit b), (lit (bs ".")), (dig fr), [(5, [5]); (4, [3]); (3, [1])]. split; [|auto]. split; [|split; [all_pieces|text_of]]. shapes. rewrite E2. revert L Lf. generalize (List.length m) (List.length fr). intros n k L Lk.
      destruct n as [|[|[|n]]]; try lia; (destruct k as [|[|[|[|[|[|[|k]]]]]]]; try lia); destruct A as [->|[->| ->]], B as [->| ->]; in_family.
Qed.
Lemma mark_part_of q k : mark_phrase marks q k -> exists a w b, part f_mark q [a; lit w] b /\ ((b = [] /\ w = [] /\ k = NoMarker) \/ (b = [(6, [1])] /\ marker_word w k)).
Proof.
  intros [[-> ->]|(sp & w & -> & B & I)]; [exists [], [], []; split; [|auto]; split; [in_family|]; split; [all_pieces|reflexivity]|].
  apply spaced_spaces in B. exists (spread sp " "), (bs w), [(6, [1])]. split.
  - split; [|split; [all_pieces|text_of]]. shapes; cbn in I; decompose [or] I; try contradiction; match goal with E : (_, _) = (_, _) |- _ => injection E as <- <- end; in_family.
  - right. split; [reflexivity|]. cbn in I; decompose [or] I; try contradiction; match goal with E : (_, _) = (_, _) |- _ => injection E as <- <- end;
      first [apply (mw_am "a"); cbn; tauto | apply (mw_am "am"); cbn; tauto | apply (mw_am "a.m"); cbn; tauto | apply (mw_am "a.m."); cbn; tauto
            | apply (mw_pm "p"); cbn; tauto | apply (mw_pm "pm"); cbn; tauto | apply (mw_pm "p.m"); cbn; tauto | apply (mw_pm "p.m."); cbn; tauto
            | apply (mw_oclock (bs "'")); repeat constructor | apply (mw_oclock []); constructor | apply (mw_oclock (bs " ")); repeat constructor ].
Qed.
(** what follows the hour and what follows the minutes *)
Lemma more_hour T : tail_ok after_min T -> tail_ok after_hour T.
Proof. destruct T as [|c T]; [auto|]. cbn. unfold not_more. destruct (is_digit c); [discriminate|reflexivity]. Qed.
Lemma mark_next table q k T : (forall w, In (w, k) table -> tail_ok after_min (bs w ++ T)) -> (q = [] -> tail_ok after_min T) -> mark_phrase table q k -> tail_ok after_min (q ++ T).
Proof.
  intros Hw HT [[-> _]|(sp & w & -> & B & I)]; [apply HT; reflexivity|]. destruct B as [|c sp -> B]; [apply (Hw w I)|reflexivity].
Qed.
Lemma marks_next q k T : mark_phrase marks q k -> tail_ok after_min T -> tail_ok after_min (q ++ T).
Proof.
  intros M H. apply (mark_next marks q k); [|auto|exact M]. intros w I. cbn in I. decompose [or] I; try contradiction; match goal with E : (_, _) = (_, _) |- _ => injection E as <- <- end; reflexivity.
Qed.
Lemma am_pm_next q k T : mark_phrase am_pm q k -> tail_ok after_min T -> tail_ok after_min (q ++ T).
Proof.
  intros M H. apply (mark_next am_pm q k); [|auto|exact M]. intros w I. cbn in I. decompose [or] I; try contradiction; match goal with E : (_, _) = (_, _) |- _ => injection E as <- <- end; reflexivity.
Qed.
Lemma min_next sec p mm ss T : minutes_part sec p mm ss -> tail_ok after_min T -> tail_ok after_hour (p ++ T).
Proof.
  intros [|a m A D L|a m b s f A D L B D' L' F] H.
  - apply more_hour. exact H.
  - destruct A as [-> | [-> | ->]]; reflexivity.
  - destruct A as [-> | [-> | ->]]; reflexivity.
Qed.
Lemma both b : In b [true; false]. Proof. destruct b; cbn; auto. Qed.
Ltac is_part := cbn [In]; tauto.

(** a single time *)
Lemma clock_found i c k : opening_phrase i -> clock_phrase c k -> exists m, search true time_expression_re (i ++ c) = Some m /\ m_pos m = 0 /\ m_str m = i ++ c /\
  grp m 1 = [] /\ grp m 2 = ck_hour k /\ grp m 3 = ck_min k /\ grp m 4 = ck_sec k /\ ((grp m 6 = [] /\ ck_mark k = NoMarker) \/ marker_word (grp m 6) (ck_mark k)) /\ grp m 7 = [].
Proof.
  intros Hi (p & q & -> & (h & Hh) & Hm & Ls & Hk).
  destruct (intro_part i Hi) as (i1 & i2 & Pi). destruct (hour_part _ _ Hh) as (hs & Ph & Th). destruct (min_part _ _ _ Hm Ls) as (a & b & d & f & bm & Pm & Qm). destruct (mark_part_of _ _ Hk) as (a' & w & bk & Pk & Qk).
  pose proof (marks_next q _ [] Hk eq_refl) as Tq. rewrite app_nil_r in Tq. pose proof (min_next _ _ _ _ q Hm Tq) as Tp.
  destruct (part_seg f_start _ _ _ PStart after_hour r_hour [] None (p ++ q) ltac:(is_part) f_start_ok (part_times _ _ _ _ _ _ _ _ Pi Ph) ok_nil Tp eq_refl) as (o1 & b1 & K1 & O1).
  pose proof f_min_ok as M2. rewrite forallb_forall in M2. specialize (M2 b1 (both b1)).
  destruct (part_seg f_min _ _ _ _ after_min r_min [] o1 q ltac:(is_part) M2 Pm ok_nil Tq O1) as (o2 & b2 & K2 & O2).
  pose proof f_mark_ok as M3. rewrite forallb_forall in M3. specialize (M3 b2 (both b2)).
  destruct (part_seg f_mark _ _ _ _ closed (RCat r_mark r_to) [] o2 [] ltac:(is_part) M3 Pk ok_nil eq_refl O2) as (o3 & b3 & K3 & _).
  cbn [items_text map List.concat app] in K1, K2, K3. rewrite <- (app_nil_r q) in K2. pose proof (takes_cat _ _ _ _ _ _ _ _ _ _ _ K2 K3) as K23. rewrite <- (app_nil_r (p ++ q)) in K1.
  pose proof (takes_cat _ _ _ _ _ _ _ _ _ _ _ K1 K23) as K. apply r_whole in K. rewrite <- app_assoc in K. rewrite (takes_search _ _ _ _ _ K).
  eexists. split; [reflexivity|]. unfold grp, caps_of. cbn [m_pos m_str m_caps app nth].
  destruct Qm as [(-> & -> & ->)|[(-> & ->)|[-> | ->]]], Qk as [(-> & -> & ->)|(-> & Mw)]; cbn [app map fst snd cap_lookup Nat.eqb nth List.concat]; rewrite ?dig_text, ?Th, ?app_nil_r; unfold lit; rewrite ?self_text; auto 20.
Qed.

(** two times *)
Lemma spread_two c s : spaces (c :: s) -> te_ok [SC c " "%char] /\ te_ok [SR s " "%char] /\ items_text [SC c " "%char] ++ items_text [SR s " "%char] = c :: s.
Proof. intros H. pose proof (spread_fine _ H) as F. unfold te_ok in *. inversion F as [|? ? A B]; subst. inversion B as [|? ? C D]; subst. repeat split; [constructor; [exact A|constructor]|constructor; [exact C|constructor]|cbn; rewrite app_nil_r; reflexivity]. Qed.
Lemma intro2_part i : range_opening i -> exists a b, part f_intro2 i [a; b] [(1, [])].
Proof.
  intros [->|(sp & B & N & ->)]; try apply spaced_spaces in B.
  - exists [], []. split; [in_family|]. split; [all_pieces|reflexivity].
  - exists (lit (bs "from")), (spread sp " "). split; [|split; [all_pieces|text_of]]. cbn [map]. rewrite (spread_shapes _ N). in_family.
Qed.
Lemma hour1_part h v : hour_says h v -> List.length h <> 3 -> exists a, part f_hour1 h [a] [(2, [2])] /\ items_text a = h.
Proof.
  intros [| |w D L] N3.
  - exists (lit (bs "noon")). split; [|reflexivity]. split; [in_family|]. split; [all_pieces|text_of].
  - exists (lit (bs "midnight")). split; [|reflexivity]. split; [in_family|]. split; [all_pieces|text_of].
  - exists (dig w). split; [|apply dig_text]. split; [|split; [all_pieces|text_of]]. shapes. revert L N3. generalize (List.length w). intros n L N3. destruct n as [|[|[|[|[|n]]]]]; try lia; in_family.
Qed.
Lemma hour2_part h : digits h -> 1 <= List.length h <= 4 -> List.length h <> 3 -> part f_hour2 h [dig h] [(10, [4])].
Proof.
  intros D L N3. split; [|split; [all_pieces|text_of]]. shapes. revert L N3. generalize (List.length h). intros n L N3. destruct n as [|[|[|[|[|n]]]]]; try lia; in_family.
Qed.
Definition simple_minutes (p mm : bytes) : Prop := (p = [] /\ mm = []) \/ (p = bs ":" ++ mm /\ digits mm /\ List.length mm = 2).
Lemma min1_part p mm : simple_minutes p mm -> exists a b, part f_min1 p [a; dig mm; []; []; []; []] b /\ ((b = [] /\ mm = []) \/ b = [(3, [1])]).
Proof.
  intros [[-> ->]|(-> & D & L)].
  - exists [], []. split; [|auto]. split; [in_family|]. split; [all_pieces|reflexivity].
  - exists (lit (bs ":")), [(3, [1])]. split; [|auto]. split; [|split; [all_pieces|text_of]]. shapes. rewrite L. in_family.
Qed.
Lemma min2_part p mm : simple_minutes p mm -> exists a b, part f_min2 p [a; dig mm; []; []; []; []] b /\ ((b = [] /\ mm = []) \/ b = [(11, [6])]).
Proof.
  intros [[-> ->]|(-> & D & L)].
  - exists [], []. split; [|auto]. split; [in_family|]. split; [all_pieces|reflexivity].
  - exists (lit (bs ":")), [(11, [6])]. split; [|auto]. split; [|split; [all_pieces|text_of]]. shapes. rewrite L. in_family.
Qed.
Lemma mark1_part q k : mark_phrase am_pm q k -> exists a w b, part f_mark1 q [a; lit w] b /\ ((b = [] /\ w = [] /\ k = NoMarker) \/ (b = [(6, [1])] /\ marker_word w k)).
Proof.
  intros [[-> ->]|(sp & w & -> & B & I)]; [exists [], [], []; split; [|auto]; split; [in_family|]; split; [all_pieces|reflexivity]|].
  apply spaced_spaces in B. exists (spread sp " "), (bs w), [(6, [1])]. split.
  - split; [|split; [all_pieces|text_of]]. shapes; cbn in I; decompose [or] I; try contradiction; match goal with E : (_, _) = (_, _) |- _ => injection E as <- <- end; in_family.
  - right. split; [reflexivity|]. cbn in I; decompose [or] I; try contradiction; match goal with E : (_, _) = (_, _) |- _ => injection E as <- <- end;
      first [apply (mw_am "am"); cbn; tauto | apply (mw_pm "pm"); cbn; tauto ].
Qed.
Lemma mark2_part q k : mark_phrase am_pm q k -> exists a w b, part f_mark2 q [a; lit w] b /\ ((b = whole_to /\ w = [] /\ k = NoMarker) \/ (b = whole_to ++ [(14, [12])] /\ marker_word w k)).
Proof.
  intros [[-> ->]|(sp & w & -> & B & I)]; [exists [], [], whole_to; split; [|auto]; split; [in_family|]; split; [all_pieces|reflexivity]|].
  apply spaced_spaces in B. exists (spread sp " "), (bs w), (whole_to ++ [(14, [12])]). split.
  - split; [|split; [all_pieces|text_of]]. shapes; cbn in I; decompose [or] I; try contradiction; match goal with E : (_, _) = (_, _) |- _ => injection E as <- <- end; in_family.
  - right. split; [reflexivity|]. cbn in I; decompose [or] I; try contradiction; match goal with E : (_, _) = (_, _) |- _ => injection E as <- <- end;
      first [apply (mw_am "am"); cbn; tauto | apply (mw_pm "pm"); cbn; tauto ].
Qed.
(** the first space of the separator belongs to the gap, the rest to the second half *)
Lemma to_part w : range_separator w -> exists gap a t s2, part f_to w [gap; a; lit t; spread s2 " "] [(9, [2]); (8, [1])] /\ spaces (items_text gap) /\ spaces (items_text a) /\ spaces s2 /\ In t [bs "-"; bs "–"; bs "~"; bs "to"].
Proof.
  intros (s1 & t & s2 & -> & B1 & B2 & T). apply spaced_spaces in B1, B2. destruct s1 as [|c s1].
  - destruct T as [T|[_ T]]; [|congruence]. exists [], [], t, s2. split; [split; [|split]|]; [| | |split; [apply Forall_nil|split; [apply Forall_nil|split; [exact B2|]]]].
    + shapes; cbn in T; decompose [or] T; try contradiction; subst t; in_family.
    + all_pieces.
    + text_of.
    + cbn in T |- *. tauto.
  - destruct (spread_two _ _ B1) as (O1 & O2 & TX). assert (I : In t [bs "-"; bs "–"; bs "~"; bs "to"]) by (destruct T as [T|[-> _]]; cbn in *; tauto).
    exists [SC c " "%char], [SR s1 " "%char], t, s2. split; [split; [|split]|]; [| | |split; [|split; [|split]]].
    + shapes; cbn in I; decompose [or] I; try contradiction; subst t; in_family.
    + constructor; [exact O1|]. constructor; [exact O2|]. all_pieces.
    + cbn [List.concat]. rewrite !app_nil_r. rewrite !items_text_app, app_assoc, TX. unfold lit. rewrite self_text, spread_text. reflexivity.
    + inversion B1; subst. cbn. constructor; [assumption|constructor].
    + inversion B1; subst. cbn. rewrite app_nil_r. assumption.
    + exact B2.
    + exact I.
Qed.
Lemma range_found i c1 k1 s c2 k2 : range_opening i -> simple_clock c1 k1 -> range_separator s -> simple_clock c2 k2 -> digits (ck_hour k2) ->
  exists m s2, search true time_expression_re (i ++ c1 ++ s ++ c2) = Some m /\ m_pos m = 0 /\ m_str m = i ++ c1 ++ s ++ c2 /\
  grp m 1 = [] /\ grp m 2 = ck_hour k1 /\ grp m 3 = ck_min k1 /\ grp m 4 = [] /\ ((grp m 6 = [] /\ ck_mark k1 = NoMarker) \/ marker_word (grp m 6) (ck_mark k1)) /\
  (exists s1, s = s1 ++ s2 /\ spaces s1) /\ grp m 7 = s2 ++ c2 /\ s2 <> [] /\
  grp m 10 = ck_hour k2 /\ grp m 11 = ck_min k2 /\ grp m 12 = [] /\ ((grp m 14 = [] /\ ck_mark k2 = NoMarker) \/ marker_word (grp m 14) (ck_mark k2)).
Proof.
  intros Hi (p & q & -> & (h & Hh) & L1 & Hs & Hm & Hk) Hto (p2 & q2 & -> & (h2 & Hh2) & L2 & Hs2 & Hm2 & Hk2) D2.
  assert (L2' : 1 <= List.length (ck_hour k2) <= 4). { destruct Hh2 as [| |w D L]; [inversion D2; discriminate..|exact L]. }
  destruct (intro2_part i Hi) as (i1 & i2 & Pi). destruct (hour1_part _ _ Hh L1) as (hs & Ph & Th). destruct (min1_part _ _ Hm) as (a & bm & Pm & Qm). destruct (mark1_part _ _ Hk) as (a' & w & bk & Pk & Qk).
  destruct (to_part _ Hto) as (gap & t1 & t & t2 & Pt & G1 & G2 & G3 & It).
  pose proof (hour2_part _ D2 L2' L2) as Ph2. destruct (min2_part _ _ Hm2) as (a2 & bm2 & Pm2 & Qm2). destruct (mark2_part _ _ Hk2) as (a2' & w2 & bk2 & Pk2 & Qk2).
  pose proof Pt as (It0 & Gt0 & Xt).
  assert (Ts : forall T, tail_ok after_min (s ++ T)). { intros T. destruct Hto as (s1 & t' & s2' & -> & B1 & _ & T'). destruct B1 as [|c0 s1 -> B1]; [|reflexivity]. destruct T' as [T'|[_ T']]; [|congruence]. cbn in T'. decompose [or] T'; try contradiction; subst t'; reflexivity. }
  pose proof (am_pm_next q _ _ Hk (Ts (ck_hour k2 ++ p2 ++ q2))) as Tq.
  assert (Tp : tail_ok after_hour (p ++ q ++ s ++ ck_hour k2 ++ p2 ++ q2)). { destruct Hm as [[-> _]|(-> & _)]; [apply more_hour; exact Tq|reflexivity]. }
  destruct (part_seg f_start2 _ _ _ PStart after_hour r_hour [] None _ ltac:(is_part) f_start2_ok (part_times _ _ _ _ _ _ _ _ Pi Ph) ok_nil Tp eq_refl) as (o1 & b1 & K1 & O1).
  pose proof f_min1_ok as M2. rewrite forallb_forall in M2. specialize (M2 b1 (both b1)).
  destruct (part_seg f_min1 _ _ _ _ after_min r_min [] o1 _ ltac:(is_part) M2 Pm ok_nil Tq O1) as (o2 & b2 & K2 & O2).
  pose proof f_mark1_ok as M3. rewrite forallb_forall in M3. specialize (M3 b2 (both b2)). cbv beta in M3. rewrite forallb_forall in M3. specialize (M3 _ It0). cbn [fst] in M3. rewrite <- concat_map in M3.
  assert (Gt : te_ok (List.concat [gap; t1; lit t; spread t2 " "])). { clear - Gt0. induction Gt0; cbn; [constructor|]. apply te_ok_app; assumption. }
  destruct (part_seg f_mark1 _ _ _ _ anything r_mark _ o2 (ck_hour k2 ++ p2 ++ q2) ltac:(is_part) M3 Pk Gt ltac:(destruct (ck_hour k2 ++ p2 ++ q2); reflexivity) O2) as (o3 & b3 & K3 & O3). rewrite Xt in K3.
  pose proof f_second_ok as M4. rewrite forallb_forall in M4. specialize (M4 b3 (both b3)).
  destruct (part_seg f_second _ _ _ _ closed r_to [] o3 [] ltac:(is_part) M4 (part_times _ _ _ _ _ _ _ _ Pt (part_times _ _ _ _ _ _ _ _ Ph2 (part_times _ _ _ _ _ _ _ _ Pm2 Pk2))) ok_nil eq_refl O3) as (o4 & b4 & K4 & _).
  cbn [items_text map List.concat] in K1, K2, K4. rewrite app_nil_l in K1, K2, K4. set (rest := s ++ ck_hour k2 ++ p2 ++ q2) in *.
  rewrite <- (app_nil_r rest) in K3. pose proof (takes_cat _ _ _ _ _ _ _ _ _ _ _ K3 K4) as K34.
  rewrite <- (app_nil_r (q ++ rest)) in K2. pose proof (takes_cat _ _ _ _ _ _ _ _ _ _ _ K2 K34) as K234.
  rewrite <- (app_nil_r (p ++ q ++ rest)) in K1. pose proof (takes_cat _ _ _ _ _ _ _ _ _ _ _ K1 K234) as K. apply r_whole in K. rewrite <- app_assoc in K. 
  rewrite <- !app_assoc. fold rest. rewrite (takes_search _ _ _ _ _ K). unfold rest in *. clear K K1 K2 K3 K4 K34 K234 rest M2 M3 M4.
  assert (Et : items_text gap ++ items_text t1 ++ t ++ t2 = s).
  { destruct Pt as (_ & _ & E). rewrite <- E. cbn [List.concat]. rewrite !items_text_app, app_nil_r. unfold lit. rewrite self_text, spread_text. reflexivity. }
  assert (Ep : items_text a2 ++ ck_min k2 = p2). { destruct Pm2 as (_ & _ & E). rewrite <- E. cbn [List.concat]. rewrite !items_text_app, dig_text. cbn. rewrite app_nil_r. reflexivity. }
  assert (Eq : items_text a2' ++ w2 = q2). { destruct Pk2 as (_ & _ & E). rewrite <- E. cbn [List.concat]. rewrite !items_text_app, app_nil_r. unfold lit. rewrite self_text. reflexivity. }
  eexists. exists (items_text t1 ++ t ++ t2). split; [reflexivity|]. unfold grp, caps_of. cbn [m_pos m_str m_caps app nth].
  assert (Nt : items_text t1 ++ t ++ t2 <> []). { intros N. apply app_eq_nil in N as [_ N]. apply app_eq_nil in N as [N _]. subst t. cbn in It. decompose [or] It; try contradiction; discriminate. }
  assert (Ex : exists s1, s = s1 ++ items_text t1 ++ t ++ t2 /\ spaces s1) by (exists (items_text gap); auto).
  assert (E7 : items_text t1 ++ t ++ t2 ++ ck_hour k2 ++ items_text a2 ++ ck_min k2 ++ items_text a2' ++ w2 = (items_text t1 ++ t ++ t2) ++ ck_hour k2 ++ p2 ++ q2) by (rewrite <- Ep, <- Eq, <- !app_assoc; reflexivity).
  destruct Qm as [(-> & E3)| ->], Qk as [(-> & -> & Ek)|(-> & Mw)], Qm2 as [(-> & E11)| ->], Qk2 as [(-> & -> & Ek2)|(-> & Mw2)]; unfold whole_to; cbn [app map fst snd cap_lookup Nat.eqb nth List.concat]; rewrite ?dig_text, ?Th, ?app_nil_r; unfold lit; rewrite ?self_text, ?spread_text; 
  cbn [items_text map List.concat app]; rewrite ?app_nil_r in *; repeat (split; [solve [auto]|]); auto.
  all: try rewrite <- E7; try rewrite E11; rewrite ?app_nil_r; auto.
Qed.
