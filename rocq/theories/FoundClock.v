(** * FoundClock: a clock time is taken whole by the pattern wherever it stands *)
From Verif Require Import Base Regex RegexParse RegexFacts Symbolic Open ShapeRun Segments Spec View ParserSpec ClockSpec ClockTextSpec Template ParserRe MatchFacts AgoFacts RelativeRuns ClockFacts ClockFamily ClockRuns Calendar Components Utils Execute ExecuteFacts FoundFacts P_TimeExpression.
From Coq Require Import ZifyBool ZifyNat ZifyN.
Open Scope string_scope.
Open Scope list_scope.
Open Scope nat_scope.

Lemma full_marks_incl x : In x full_marks -> In x marks.
Proof. unfold full_marks, marks. cbn. intuition. Qed.
Definition f_hour0 : family := map (fun h => ([h], [(2, [0])])) ([sh_word (bs "noon"); sh_word (bs "midnight")] ++ map sh_digits [1; 2; 3; 4]).
Definition f_mark0 : family := flat_map (fun w => map (fun s => ([s; sh_word (bs (fst w))], [(6, [1])])) sp_or_none) full_marks.
Definition stop_tail : tail := Tail (fun c => if is_word c then false else not_more c) true.
Definition points : list ascii := ["."; ":"]%char.
Lemma f_hour0_ok : forallb (seg_on true after_hour (RGrp 2 te_hour) PAny []) f_hour0 = true. Proof. vm_compute. reflexivity. Qed.
Lemma f_min_point : forallb (fun b => forallb (fun x => forallb (seg_on true after_hour r_min (PWord b) [(true, x)]) f_min) points) [true; false] = true. Proof. vm_compute. reflexivity. Qed.
Definition r_mer : re := ROpt true (te_mer 6).
Lemma f_mark0_ok : forallb (fun b => forallb (seg_on true stop_tail r_mer (PWord b) []) f_mark0) [true; false] = true. Proof. vm_compute. reflexivity. Qed.
Lemma f_mark0_point : forallb (fun b => forallb (fun x => forallb (seg_on true after_hour r_mer (PWord b) [(true, x)]) f_mark0) points) [true; false] = true. Proof. vm_compute. reflexivity. Qed.
Lemma r_part0 r : In r [RGrp 2 te_hour; r_min; r_mer] -> Symbolic.part true time_expression_re r.
Proof.
  intros I c d H. unfold time_expression_re in H. cbn [agree] in H. repeat rewrite andb_true_iff in H. destruct H as (A1 & A2 & A3 & A4 & A5 & A6 & A7 & A8).
  cbn [In] in I. decompose [or] I; try contradiction; subst r; cbn [agree r_min r_mer]; repeat rewrite andb_true_iff; auto.
Qed.
Lemma part_seg0 f w segs b p tl r ah o T : In r [RGrp 2 te_hour; r_min; r_mer] -> forallb (seg_on true tl r p (map shape_of ah)) f = true -> part f w segs b -> te_ok ah -> tail_ok tl T -> prev_ok p o ->
  exists o' q, takes true r o w (items_text ah ++ T) o' (Segments.caps_of segs b) /\ prev_ok (PWord q) o'.
Proof.
  intros Hr H (I & F & Tx) Ga HT Ho. rewrite forallb_forall in H. specialize (H _ I).
  assert (G : te_ok (List.concat segs)). { clear - F. induction F; cbn; [constructor|]. apply te_ok_app; assumption. }
  destruct (seg_ok true time_expression_re tl r p ah segs b o T (r_part0 r Hr) H G Ga HT Ho) as (o' & q & A & B). rewrite Tx in A. exists o', q. auto.
Qed.
Lemma hour_part0 h v : hour_says h v -> exists a, part f_hour0 h [a] [(2, [0])] /\ items_text a = h.
Proof.
  intros [| |w D L].
  - exists (lit (bs "noon")). split; [|reflexivity]. split; [in_family|]. split; [all_pieces|text_of].
  - exists (lit (bs "midnight")). split; [|reflexivity]. split; [in_family|]. split; [all_pieces|text_of].
  - exists (dig w). split; [|apply dig_text]. split; [|split; [all_pieces|text_of]]. shapes. revert L. generalize (List.length w). intros n L. destruct n as [|[|[|[|[|n]]]]]; try lia; in_family.
Qed.
Lemma mark_part0 sp w k : spaced sp -> In (w, k) full_marks -> exists a, part f_mark0 (sp ++ bs w) [a; lit (bs w)] [(6, [1])].
Proof.
  intros B I. apply spaced_spaces in B. exists (spread sp " "). split; [|split; [all_pieces|text_of]].
  shapes; cbn in I; decompose [or] I; try contradiction; match goal with E : (_, _) = (_, _) |- _ => injection E as <- <- end; in_family.
Qed.
Lemma full_mark_word w k : In (w, k) full_marks -> marker_word (bs w) k.
Proof.
  intros I. cbn in I; decompose [or] I; try contradiction; match goal with E : (_, _) = (_, _) |- _ => injection E as <- <- end;
    first [apply mw_am; cbn; tauto | apply mw_pm; cbn; tauto | apply (mw_oclock (bs "'")); repeat constructor | apply (mw_oclock []); constructor | apply (mw_oclock (bs " ")); repeat constructor ].
Qed.

(** the three ways in which a time can end *)
Lemma stop_cases t : clock_stop t -> tail_ok stop_tail t \/ exists x r, t = x :: r /\ In x points /\ tail_ok after_hour r.
Proof.
  destruct t as [|x r]; [left; reflexivity|]. cbn [clock_stop]. intros (W & N & H). destruct (Ascii.eqb x ".") eqn:E1; [apply Ascii.eqb_eq in E1|destruct (Ascii.eqb x ":") eqn:E2; [apply Ascii.eqb_eq in E2|]].
  - right. exists x, r. split; [reflexivity|]. split; [subst; cbn; auto|]. destruct r as [|d r]; [reflexivity|]. cbn. rewrite (H (or_introl E1) d r eq_refl). reflexivity.
  - right. exists x, r. split; [reflexivity|]. split; [subst; cbn; auto|]. destruct r as [|d r]; [reflexivity|]. cbn. rewrite (H (or_intror E2) d r eq_refl). reflexivity.
  - left. cbn. rewrite W. unfold not_more. rewrite E1, E2. destruct (Ascii.eqb x "239") eqn:E3; [apply Ascii.eqb_eq in E3; contradiction|]. replace (is_digit x) with false; [reflexivity|]. unfold is_word in W. destruct (is_digit x); [|reflexivity]. rewrite Bool.orb_true_r in W. discriminate W.
Qed.

(** ** Running the rest of the pattern *)
Lemma mt_low r p t cs s' : low t -> mt true r (mkst p t cs) s' -> low (s_rest s').
Proof. intros L M. apply mt_word in M as (w & c & E & _). cbn [s_rest] in E. rewrite E in L. apply low_app in L. apply L. Qed.
Lemma look_ok o t cs : (t = [] \/ exists c r, t = c :: r /\ is_word c = false) -> rm true (RLook false te_look) (mkst o t cs) Some = Some (mkst o t cs).
Proof.
  intros [->|(c & r & -> & W)]; [reflexivity|]. cbn [rm]. assert (E : rm true te_look (mkst o (c :: r) cs) Some <> None); [|destruct (rm true te_look _ _); [reflexivity|congruence]].
  unfold te_look. cbn [rm s_rest]. assert (Q : set_ok true false [CClass true KWord] c = true) by (unfold set_ok; cbn; rewrite W; reflexivity). 
  match goal with |- context [set_ok ?a ?b ?l c] => change (set_ok a b l c) with (set_ok true false [CClass true KWord] c) end. rewrite Q. discriminate.
Qed.
Lemma look_inv o t cs x : rm true (RLook false te_look) (mkst o t cs) Some = Some x -> forall c r, t = c :: r -> is_word c = false.
Proof.
  intros E c r ->. destruct (is_word c) eqn:W; [|reflexivity]. exfalso. cbn [rm] in E. revert E. unfold te_look. cbn [rm s_rest].
  match goal with |- context [set_ok ?a ?b ?l c] => change (set_ok a b l c) with (set_ok true false [CClass true KWord] c) end.
  assert (Q : set_ok true false [CClass true KWord] c = false) by (unfold set_ok; cbn; rewrite W; reflexivity). rewrite Q. cbn. discriminate.
Qed.
Lemma no_marker o t cs : low t -> ~ marker_ahead t -> clock_stop t -> rm true (RCat r_mer (RLook false te_look)) (mkst o t cs) Some = Some (mkst o t cs).
Proof.
  intros Lt N St. cbn [rm r_mer]. fold (rm true (te_mer 6)).
  assert (L : rm true (RLook false te_look) (mkst o t cs) Some = Some (mkst o t cs)). { apply look_ok. destruct t as [|c r]; [auto|right]. exists c, r. split; [reflexivity|apply St]. }
  destruct (rm true (te_mer 6) (mkst o t cs) (fun s' => rm true (RLook false te_look) s' Some)) as [x|] eqn:E; [exfalso|].
  2:{ etransitivity; [|exact L]. cbn [rm] in E |- *. rewrite E. reflexivity. }
  apply rm_sound in E as (s1 & M & K). destruct s1 as [p1 t1 c1].
  assert (M' : mt true (ROpt true (te_mer 6)) (mkst o t cs) (mkst p1 t1 c1)) by (right; exact M).
  unfold te_mer in M. destruct M as (s2 & M1 & M2). apply mt_plain_inv in M1; [|reflexivity]. destruct M1 as (b & u & Eb & Lb & ->). apply SPs_blanks in Lb. cbn [s_rest] in Eb.
  rewrite Eb in Lt. apply low_app in Lt as [_ Lu]. apply mt_grp_inv in M2; [|reflexivity]. destruct M2 as (w & v & Ew & Lw & E2). rewrite Ew in Lu. apply low_app in Lu as [Lww _].
  destruct (ampm_inv _ Lww Lw) as (k & Mk). injection E2 as -> -> ->. apply N. exists b, w, k, v. split; [rewrite Eb, Ew; reflexivity|]. split; [exact Lb|]. split; [exact Mk|]. intros c r Ec. apply (look_inv _ _ _ _ K c r Ec).
Qed.
Lemma to_fails o t cs K : low t -> ~ range_ahead t -> rm true (RGrp 7 te_to) (mkst o t cs) K = None.
Proof.
  intros Ls N. destruct (rm true (RGrp 7 te_to) (mkst o t cs) K) as [x|] eqn:E; [exfalso|reflexivity]. apply rm_sound in E as (s1 & M & _).
  apply mt_grp_gen in M as (s8 & rest & M & E8 & _ & ->). cbn [s_rest] in E8.
  unfold te_to in M. destruct M as (t1 & K1 & M). apply mt_grp_inv in K1; [|reflexivity]. destruct K1 as (b1 & v1 & F1 & N1 & ->). cbn [s_rest] in F1. rewrite F1 in Ls. apply low_app in Ls as [_ Ls].
  assert (B1 : blanks b1) by (destruct N1 as [->|N1]; [constructor|apply SPs_blanks in N1; exact N1]).
  destruct M as (t2 & K2 & M). apply mt_grp_inv in K2; [|reflexivity]. destruct K2 as (tw & v2 & F2 & N2 & ->). rewrite F2 in Ls. apply low_app in Ls as [Lt Ls]. apply (to_sep_inv _ Lt) in N2.
  destruct M as (t3 & K3 & M). apply mt_plain_inv in K3; [|reflexivity]. destruct K3 as (b2 & v3 & F3 & N3 & ->). apply SPs_blanks in N3.
  destruct M as (t4 & K4 & M). apply mt_grp_inv in K4; [|reflexivity]. destruct K4 as (h2 & v4 & F4 & N4 & ->). digit_run N4. destruct N4 as [D4 N4].
  destruct h2 as [|d h2]; [cbn in N4; lia|]. inversion D4 as [|? ? Dd _]; subst. apply N. exists b1, tw, b2, d, (h2 ++ v4). split; [reflexivity|]. auto.
Qed.
(** the space that is taken along *)
Lemma rm_opt ic a s k : rm ic (ROpt true a) s k = match rm ic a s k with Some x => Some x | None => k s end.
Proof. reflexivity. Qed.
Lemma rm_cat ic a b s k : rm ic (RCat a b) s k = rm ic a s (fun s' => rm ic b s' k).
Proof. reflexivity. Qed.
Lemma space_only c : Ascii.eqb c " " = false -> set_ok true false [CChar " "] c = false.
Proof.
  intros E. pose proof (forall_ascii (fun c => if Ascii.eqb c " " then true else negb (set_ok true false [CChar " "] c)) ltac:(vm_compute; reflexivity) c) as H. cbv beta in H. rewrite E in H.
  destruct (set_ok true false [CChar " "] c); [discriminate H|reflexivity].
Qed.
Lemma opt_to_fails o t cs : low t -> ~ range_ahead t -> rm true (ROpt true (RGrp 7 te_to)) (mkst o t cs) Some = Some (mkst o t cs).
Proof. intros L N. rewrite rm_opt, (to_fails o t cs Some L N). reflexivity. Qed.
Lemma to_nothing o t : low t -> ~ range_ahead t -> exists gap t' o', t = gap ++ t' /\ gap = gap_after t /\ takes true r_to o gap t' o' [].
Proof.
  intros Lt N. unfold takes, r_to. destruct t as [|c t].
  - exists [], [], o. split; [reflexivity|]. split; [auto|]. rewrite rm_cat, rm_opt, opt_to_fails by assumption. reflexivity.
  - destruct (Ascii.eqb c " ") eqn:Ec.
    + apply Ascii.eqb_eq in Ec. subst c. exists (bs " "), t, (Some " "%char). split; [reflexivity|]. split; [auto|]. assert (Lt' : low t) by (inversion Lt; assumption).
      rewrite rm_cat, rm_opt. change (rm true te_space (mkst o (bs " " ++ t) []) (fun s' => rm true (ROpt true (RGrp 7 te_to)) s' Some)) with (rm true (ROpt true (RGrp 7 te_to)) (mkst (Some " "%char) t []) Some).
      rewrite opt_to_fails; [reflexivity|exact Lt'|]. intros (s1 & w & s2 & d & r & -> & B1 & Tw & B2 & D). apply N. exists (" "%char :: s1), w, s2, d, r. split; [reflexivity|]. split; [constructor; [reflexivity|exact B1]|auto].
    + exists [], (c :: t), o. split; [reflexivity|]. split; [cbn; rewrite Ec; reflexivity|]. rewrite rm_cat, rm_opt. cbn [app]. rewrite opt_to_fails by assumption.
      change (rm true te_space (mkst o (c :: t) []) (fun s' => rm true (ROpt true (RGrp 7 te_to)) s' Some)) with (if set_ok true false [CChar " "] c then rm true (ROpt true (RGrp 7 te_to)) (mkst (Some c) t []) Some else None).
      rewrite (space_only c Ec). reflexivity.
Qed.

Definition r_clock : re := RCat (RGrp 2 te_hour) (RCat r_min (RCat r_mer (RCat (RLook false te_look) r_to))).
Lemma takes_look o t : (t = [] \/ exists c r, t = c :: r /\ is_word c = false) -> takes true (RLook false te_look) o [] t o [].
Proof. intros H. unfold takes. cbn [app]. apply look_ok. exact H. Qed.
Lemma stop_end t : clock_stop t -> t = [] \/ exists c r, t = c :: r /\ is_word c = false.
Proof. destruct t as [|c r]; [auto|]. intros (W & _). right. eauto. Qed.
Lemma items_one x : items_text [SC x x] = [x]. Proof. reflexivity. Qed.
Lemma one_ok x : te_ok [SC x x]. Proof. constructor; [|constructor]. apply alike_case. reflexivity. Qed.

Lemma marker_taken o b q k post : prev_ok (PWord b) o -> mark_phrase full_marks q k -> low (q ++ post) -> clock_stop post -> (q = [] -> ~ marker_ahead post) ->
  exists o' c, takes true (RCat r_mer (RLook false te_look)) o q post o' c /\ prev_ok (PWord true) (Some "a"%char) /\
    ((c = [] /\ q = [] /\ k = NoMarker) \/ exists w, c = [(6, w)] /\ marker_word w k).
Proof.
  intros Ho [[-> ->]|(sp & w & -> & B & I)] Lq St Nm.
  - exists o, []. split; [unfold takes; apply no_marker; auto|]. split; [exists "a"%char; auto|auto].
  - destruct (mark_part0 sp w k B I) as (a & P).
    assert (Q : exists o' q', takes true r_mer o (sp ++ bs w) post o' (Segments.caps_of [a; lit (bs w)] [(6, [1])]) /\ prev_ok (PWord q') o').
    { destruct (stop_cases post St) as [T|(x & r & -> & Ix & T)].
      - pose proof f_mark0_ok as M. rewrite forallb_forall in M. specialize (M b (both b)). apply (part_seg0 f_mark0 _ _ _ (PWord b) stop_tail r_mer [] o post ltac:(is_part) M P ok_nil T Ho).
      - pose proof f_mark0_point as M. rewrite forallb_forall in M. specialize (M b (both b)). cbv beta in M. rewrite forallb_forall in M. specialize (M x Ix). cbv beta in M.
        apply (part_seg0 f_mark0 _ _ _ (PWord b) after_hour r_mer [SC x x] o r ltac:(is_part) M P (one_ok x) T Ho). }
    destruct Q as (o' & q' & K & O'). exists o', (Segments.caps_of [a; lit (bs w)] [(6, [1])]). split.
    + pose proof (takes_cat true r_mer (RLook false te_look) o (sp ++ bs w) [] post o' o' _ [] K (takes_look o' post (stop_end _ St))) as X. rewrite app_nil_r in X. exact X.
    + split; [exists "a"%char; auto|]. right. exists (bs w). split; [|apply full_mark_word; exact I]. unfold Segments.caps_of. cbn [map fst snd nth List.concat]. unfold lit. rewrite self_text, app_nil_r. reflexivity.
Qed.
Lemma full_next q k T : mark_phrase full_marks q k -> (q = [] -> tail_ok after_min T) -> tail_ok after_min (q ++ T).
Proof.
  intros M H. apply (mark_next full_marks q k); [|exact H|exact M]. intros w I. cbn in I. decompose [or] I; try contradiction; match goal with E : (_, _) = (_, _) |- _ => injection E as <- <- end; reflexivity.
Qed.
Lemma stop_more T : tail_ok stop_tail T -> tail_ok after_min T.
Proof. destruct T as [|c T]; [auto|]. cbn. destruct (is_word c); [discriminate|auto]. Qed.
Lemma point_hour x r : In x points -> tail_ok after_hour (x :: r).
Proof. cbn. intros [<-|[<-|[]]]; reflexivity. Qed.
Theorem clock_taken o c k q post : clock_words c k q -> low (c ++ post) -> clock_stop post -> ~ range_ahead post -> (q = [] -> ~ marker_ahead post) ->
  exists gap post' o' cs, post = gap ++ post' /\ gap = gap_after post /\ takes true r_clock o (c ++ gap) post' o' cs /\
    forall m w0, m_caps m = cs ++ [(1, w0)] -> groups_say m 2 3 4 6 k /\ grp m 7 = [] /\ grp m 1 = w0.
Proof.
  intros (p & -> & (h & Hh) & Hm & Ls & Hk) Lc St Nr Nm.
  destruct (hour_part0 _ _ Hh) as (hs & Ph & Th). destruct (min_part _ _ _ Hm Ls) as (a & b & d & f & bm & Pm & Qm).
  rewrite <- !app_assoc in Lc. pose proof Lc as Lp. apply low_app in Lp as [_ Lp]. apply low_app in Lp as [_ Lq]. pose proof Lq as Lpost. apply low_app in Lpost as [_ Lpost].
  assert (Tp : tail_ok after_hour (p ++ q ++ post)).
  { destruct (stop_cases post St) as [T|(x & r & -> & Ix & T)].
    - apply (min_next _ _ _ _ _ Hm). apply (full_next q (ck_mark k)); [exact Hk|]. intros _. apply stop_more. exact T.
    - destruct Hm as [|? ? A|? ? ? ? ? A]; [|destruct A as [-> | [-> | ->]]; reflexivity|destruct A as [-> | [-> | ->]]; reflexivity]. cbn [app].
      destruct Hk as [[-> _]|(sp & w & -> & B & I)]; [apply point_hour; exact Ix|]. apply more_hour. apply (full_next (sp ++ bs w) (ck_mark k)); [right; eauto|].
      intros N. exfalso. apply app_eq_nil in N as [_ N]. apply full_mark_word in I. apply marker_nonempty in I as [I _]. contradiction. }
  destruct (part_seg0 f_hour0 _ _ _ PAny after_hour (RGrp 2 te_hour) [] o _ ltac:(is_part) f_hour0_ok Ph ok_nil Tp Logic.I) as (o1 & b1 & K1 & O1). cbn [items_text map List.concat app] in K1.
  assert (K2 : exists o2 b2, takes true r_min o1 p (q ++ post) o2 (Segments.caps_of [a; dig (ck_min k); b; dig (ck_sec k); d; f] bm) /\ prev_ok (PWord b2) o2).
  { assert (Plain : tail_ok after_min (q ++ post) -> exists o2 b2, takes true r_min o1 p (q ++ post) o2 (Segments.caps_of [a; dig (ck_min k); b; dig (ck_sec k); d; f] bm) /\ prev_ok (PWord b2) o2).
    { intros T. pose proof f_min_ok as M2. rewrite forallb_forall in M2. specialize (M2 b1 (both b1)). destruct (part_seg0 f_min _ _ _ _ after_min r_min [] o1 (q ++ post) ltac:(is_part) M2 Pm ok_nil T O1) as (o2 & b2 & K2 & O2). exists o2, b2. split; [exact K2|exact O2]. }
    destruct (stop_cases post St) as [T|(x & r & -> & Ix & T)].
    - apply Plain. apply (full_next q (ck_mark k)); [exact Hk|]. intros _. apply stop_more. exact T.
    - destruct Hk as [[-> Ek]|(sp & w & -> & B & I)].
      + pose proof f_min_point as M2. rewrite forallb_forall in M2. specialize (M2 b1 (both b1)). cbv beta in M2. rewrite forallb_forall in M2. specialize (M2 x Ix). cbv beta in M2.
        destruct (part_seg0 f_min _ _ _ _ after_hour r_min [SC x x] o1 r ltac:(is_part) M2 Pm (one_ok x) T O1) as (o2 & b2 & K2 & O2). exists o2, b2. split; [exact K2|exact O2].
      + apply Plain. apply (full_next (sp ++ bs w) (ck_mark k)); [right; eauto|].
        intros N. exfalso. apply app_eq_nil in N as [_ N]. apply full_mark_word in I. apply marker_nonempty in I as [I _]. contradiction. }
  destruct K2 as (o2 & b2 & K2 & O2).
  destruct (marker_taken o2 b2 q (ck_mark k) post O2 Hk Lq St Nm) as (o3 & ck & K3 & _ & Qk).
  destruct (to_nothing o3 post Lpost Nr) as (gap & post' & o4 & Eg & Hg & K4).
  exists gap, post', o4. rewrite Eg in K1, K2, K3. eexists. split; [exact Eg|]. split; [exact Hg|]. split.
  - unfold r_clock. assert (K34 : takes true (RCat (RCat r_mer (RLook false te_look)) r_to) o2 (q ++ gap) post' o4 ([] ++ ck)) by (apply (takes_cat _ _ _ _ _ _ _ _ _ _ _ K3 K4)).
    assert (K34' : takes true (RCat r_mer (RCat (RLook false te_look) r_to)) o2 (q ++ gap) post' o4 ([] ++ ck)) by exact K34.
    rewrite app_assoc in K2. pose proof (takes_cat _ _ _ _ _ _ _ _ _ _ _ K2 K34') as K234. rewrite app_assoc in K1. rewrite app_assoc in K1. rewrite <- (app_assoc p q gap) in K1.
    pose proof (takes_cat _ _ _ _ _ _ _ _ _ _ _ K1 K234) as K. rewrite <- !app_assoc in K. rewrite <- !app_assoc. exact K.
  - intros m w0 E. unfold groups_say, grp. rewrite E. unfold Segments.caps_of.
    destruct Qm as [(-> & E3 & E4)|[(-> & E4)|[-> | ->]]], Qk as [(-> & -> & E6)|(w & -> & Mw)]; rewrite ?E3, ?E4; cbn [app map fst snd cap_lookup Nat.eqb nth List.concat]; rewrite ?dig_text, ?Th, ?app_nil_r; auto 20.
Qed.

(** ** Where the match of a time starts *)
Lemma te_split : time_expression_re = RCat (RGrp 1 te_lead) (RCat (ROpt false te_at) r_clock).
Proof. reflexivity. Qed.
Definition clock_head (c : ascii) : bool := if is_digit c then true else if Ascii.eqb c "n" then true else Ascii.eqb c "m".
Lemma words_head c k q : clock_words c k q -> exists f c', c = f :: c' /\ clock_head f = true.
Proof.
  intros (p & -> & (h & Hh) & _). destruct Hh as [| |w D L].
  - eexists _, _. split; [reflexivity|reflexivity].
  - eexists _, _. split; [reflexivity|reflexivity].
  - destruct w as [|f w]; [cbn in L; lia|]. exists f, (w ++ p ++ q). split; [reflexivity|]. inversion D as [|? ? Df _]; subst. unfold clock_head. rewrite Df. reflexivity.
Qed.
Lemma head_not_blank f : clock_head f = true -> is_space f = false.
Proof.
  intros H. pose proof (forall_ascii (fun c => if clock_head c then negb (is_space c) else true) ltac:(vm_compute; reflexivity) f) as Q. cbv beta in Q. rewrite H in Q. destruct (is_space f); [discriminate Q|reflexivity].
Qed.
Lemma lead_inv w : low w -> lang true te_lead w -> w = [] \/ exists c, w = [c] /\ (is_space c = true \/ c = "t"%char).
Proof.
  intros Lw L. unfold te_lead in L. cbn [lang] in L. destruct L as [->|[L|L]]; [auto|right|right]; destruct L as (c & -> & H); exists c; split; auto.
  - left. pose proof (forall_ascii (fun c => if set_ok true false [CClass false KSpace] c then is_space c else true) ltac:(vm_compute; reflexivity) c) as Q. cbv beta in Q. rewrite H in Q. exact Q.
  - right. inversion Lw as [|? ? Lc _]; subst. pose proof (forall_ascii (fun c => if is_low c then if set_ok true false [CChar "T"] c then Ascii.eqb c "t" else true else true) ltac:(vm_compute; reflexivity) c) as Q. cbv beta in Q. rewrite Lc, H in Q. apply Ascii.eqb_eq. exact Q.
Qed.
Lemma hour_at p t x : low t -> rm true time_expression_re (mkst p t []) Some = Some x ->
  exists w0 intro u p', t = w0 ++ intro ++ u /\ lang true (RCat te_lead (ROpt false te_at)) (w0 ++ intro) /\ (w0 = [] \/ exists c, w0 = [c] /\ (is_space c = true \/ c = "t"%char)) /\ opening intro /\
    rm true r_clock (mkst p' u [(1, w0)]) Some = Some x.
Proof.
  intros Lt H. rewrite te_split, rm_cat in H. apply rm_sound in H as (s1 & M & H). apply mt_grp_inv in M; [|reflexivity]. destruct M as (w0 & u & E & L & ->). cbn [s_rest] in E. subst t.
  apply low_app in Lt as [L0 Lu]. rewrite rm_cat in H. apply rm_sound in H as (s2 & M & H).
  assert (Q : exists intro u' p', u = intro ++ u' /\ lang true (ROpt false te_at) intro /\ opening intro /\ s2 = mkst p' u' [(1, w0)]).
  { destruct M as [->|M].
    - exists [], u. eexists. split; [reflexivity|]. split; [left; reflexivity|]. split; [left; reflexivity|reflexivity].
    - apply mt_plain_inv in M; [|reflexivity]. destruct M as (w & u' & E & Lw & ->). cbn [s_rest] in E. subst u. apply low_app in Lu as [Lw' _]. exists w, u'. eexists. split; [reflexivity|]. split; [right; exact Lw|]. split; [apply opening_inv; assumption|reflexivity]. }
  destruct Q as (intro & u' & p' & -> & La & Op & ->). exists w0, intro, u', p'. split; [reflexivity|]. split; [exists w0, intro; auto|]. split; [apply lead_inv; assumption|]. split; [exact Op|exact H].
Qed.
Definition blank_head : list (ascii -> bool) := [is_space; clock_head].
Definition r_before : re := RCat te_lead (ROpt false te_at).
Definition r_first : re := RCat te_hour (RCat (ROpt true te_min) (RCat (ROpt true (te_mer 6)) (RCat (ROpt true te_space) (ROpt true (RCat te_lead2 te_sep2))))).
Definition r_second : re := RCat te_d14 (RCat (ROpt true te_min2) (ROpt true (te_mer 14))).
Lemma before_apart : no_straddle blank_head r_before = true. Proof. vm_compute. reflexivity. Qed.
Lemma first_apart : no_straddle blank_head r_first = true. Proof. vm_compute. reflexivity. Qed.
Lemma second_apart : no_straddle blank_head r_second = true. Proof. vm_compute. reflexivity. Qed.
Lemma not_inside r x b f v : In r [r_before; r_first; r_second] -> is_space b = true -> clock_head f = true -> low (x ++ b :: f :: v) -> ~ lang true r (x ++ b :: f :: v).
Proof.
  intros I Hb Hf Lw. apply (straddle_ok is_space [clock_head] r x b (f :: v) [] [f] v).
  - cbn [In] in I. decompose [or] I; try contradiction; subst r; [exact before_apart|exact first_apart|exact second_apart].
  - cbn. lia.
  - exact Hb.
  - constructor; [exact Hf|constructor].
  - exact Lw.
  - discriminate.
  - rewrite app_nil_r. reflexivity.
Qed.

(** ** A connecting word before the time *)
Lemma to_word_end w : to_word w -> exists w' c, w = w' ++ [c] /\ is_space c = false.
Proof. unfold to_word. cbn [In]. intros H. decompose [or] H; try contradiction; subst w; match goal with |- context [?l = _ ++ _] => let l' := eval vm_compute in l in change l with l' end;
  [exists [], "-"%char|exists ["226"; "128"]%char, "147"%char|exists [], "~"%char|exists ["227"; "128"]%char, "156"%char|exists ["t"%char], "o"%char|exists [], "?"%char]; split; reflexivity. Qed.
Lemma cut_at {A} (u v a : list A) b w : u ++ v = a ++ b :: w ->
  (exists z, u = a ++ b :: z /\ w = z ++ v) \/ (exists z, a = u ++ z /\ v = z ++ b :: w).
Proof.
  intros E. apply app_eq_app in E as (z & [(-> & E)|(-> & E)]).
  - destruct z as [|b' z]; cbn in E; [right; exists []; split; [rewrite !app_nil_r; reflexivity|symmetry; exact E]|]. injection E as <- ->. left. exists z. auto.
  - right. exists z. auto.
Qed.
(** if the match of a time reaches over a blank into another time, there is a connecting word between them *)
Lemma reaches_over o t cs s' a' b f v : low t -> is_space b = true -> clock_head f = true -> mt true r_clock (mkst o t cs) s' -> t = a' ++ b :: f :: v ->
  List.length (s_rest s') <= List.length v -> after_connective (a' ++ [b]).
Proof.
  intros Lt Hb Hf M Et Lr. unfold r_clock in M.
  destruct M as (s1 & M1 & M). destruct (mt_word _ _ _ _ M1) as (w1 & c1 & E1 & _ & L1 & _). cbn [lang] in L1.
  destruct M as (s2 & M2 & M). destruct (mt_word _ _ _ _ M2) as (w2 & c2 & E2 & _ & L2 & _).
  destruct M as (s3 & M3 & M). destruct (mt_word _ _ _ _ M3) as (w3 & c3 & E3 & _ & L3 & _).
  destruct M as (s4 & [-> _] & M).
  destruct M as (s5 & M5 & M). destruct (mt_word _ _ _ _ M5) as (w5 & c5 & E5 & _ & L5 & _). cbn [s_rest] in E1. rewrite E2, E3, E5 in E1. 
  assert (Hin : forall w, lang true (ROpt true (RCat te_lead2 te_sep2)) w -> lang true r_first (w1 ++ w2 ++ w3 ++ w5 ++ w)).
  { intros w L. exists w1, (w2 ++ w3 ++ w5 ++ w). split; [reflexivity|]. split; [exact L1|]. exists w2, (w3 ++ w5 ++ w). split; [reflexivity|]. split; [exact L2|]. exists w3, (w5 ++ w). split; [reflexivity|]. split; [exact L3|]. exists w5, w. auto. }
  assert (Any : forall w z, lang true r_first w -> t = w ++ z -> List.length w <= List.length a' + 1).
  { intros w z L E. destruct (Nat.le_gt_cases (List.length w) (List.length a' + 1)) as [|G]; [assumption|exfalso]. assert (Lw : low w) by (rewrite E in Lt; apply low_app in Lt; apply Lt). rewrite Et in E. symmetry in E.
    apply cut_at in E as [(y & Ew & Ez)|(y & Ea & _)]; [|rewrite Ea, app_length in G; lia]. destruct y as [|f' y]; [rewrite Ew, app_length in G; cbn in G; lia|]. cbn in Ez. injection Ez as <- _.
    rewrite Ew in L, Lw. exact (not_inside r_first a' b f y ltac:(cbn; auto) Hb Hf Lw L). }
  destruct M as [->|M].
  { (* no second time: too short *)
    exfalso. specialize (Any _ (s_rest s5) (Hin [] (or_introl eq_refl))). rewrite app_nil_r in Any. rewrite E1, <- !app_assoc in Any. specialize (Any eq_refl).
    apply (f_equal (@List.length _)) in E1. rewrite Et in E1. rewrite !app_length in *. cbn [List.length] in E1. lia. }
  destruct s5 as [o5 t5' cs5]. cbn [s_rest] in E1. apply mt_grp_gen in M as (s8 & rest & M & E8 & Er8 & ->). cbn [s_rest] in Lr. unfold te_to in M.
  destruct M as (t1 & K & M). apply mt_grp_inv in K; [|reflexivity]. destruct K as (b1 & v1 & F1 & N1 & ->).
  destruct M as (t2 & K & M). apply mt_grp_inv in K; [|reflexivity]. destruct K as (tw & v2 & F2 & N2 & ->).
  destruct M as (t3 & K & M). apply mt_plain_inv in K; [|reflexivity]. destruct K as (b2 & v3 & F3 & N3 & ->). apply SPs_blanks in N3.
  destruct M as (t4 & K4 & M). destruct (mt_word _ _ _ _ K4) as (h2 & d4 & F4 & _ & L4 & _). cbn [lang s_rest] in L4, F4.
  destruct M as (t5 & K5 & M). destruct (mt_word _ _ _ _ K5) as (m2 & d5 & F5 & _ & L6 & _).
  destruct M as (t6 & K6 & M). destruct (mt_word _ _ _ _ K6) as (q2 & d6 & F6 & _ & L7 & _).
  destruct t6 as [o6 z cs6]. apply mt_WB in M as [_ ->]. cbn [s_rest] in Lr, F6. rewrite F1, F2, F3, F4, F5, F6 in E1.
  set (w := w1 ++ w2 ++ w3 ++ w5 ++ b1 ++ tw) in *. set (D := h2 ++ m2 ++ q2).
  assert (Ew : t = w ++ b2 ++ D ++ z) by (unfold w, D; rewrite <- !app_assoc; exact E1).
  assert (LwD : low D) by (rewrite Ew in Lt; apply low_app in Lt as [_ Lt]; apply low_app in Lt as [_ Lt]; apply low_app in Lt as [Lt _]; exact Lt).
  assert (Lw : lang true r_first w) by (unfold w; apply Hin; right; exists b1, tw; auto).
  assert (LD : lang true r_second D) by (exists h2, (m2 ++ q2); split; [reflexivity|]; split; [exact L4|]; exists m2, q2; auto).
  assert (Ltw : low tw) by (clear - Lt E1; rewrite E1 in Lt; repeat (apply low_app in Lt as [? Lt]); assumption).
  pose proof (to_sep_inv _ Ltw N2) as Tw. destruct (to_word_end _ Tw) as (tw' & x & Etw & Nx).
  pose proof (Any _ _ Lw Ew) as Len. rewrite Et in Ew. symmetry in Ew. apply cut_at in Ew as [(y & Ew & Ez)|(y & Ea & Ez)].
  { exfalso. rewrite Ew, app_length in Len. cbn [List.length] in Len. destruct y; [|cbn [List.length] in Len; lia]. unfold w in Ew. rewrite Etw, !app_assoc in Ew. apply app_inj_tail in Ew as [_ Ew]. congruence. }
  apply cut_at in Ez as [(y2 & Eb & Ez)|(y2 & Ey & Ez)].
  { destruct y2 as [|f' y2].
    - rewrite app_nil_l in Ez. exists (w1 ++ w2 ++ w3 ++ w5 ++ b1), tw, b2. split; [|auto]. rewrite Ea, Eb. unfold w. rewrite <- !app_assoc. reflexivity.
    - exfalso. cbn in Ez. injection Ez as <- _. unfold blanks in N3. rewrite Eb in N3. rewrite Forall_forall in N3. specialize (N3 f). rewrite (head_not_blank f Hf) in N3. discriminate N3. apply in_or_app. right. cbn. auto. }
  exfalso. apply cut_at in Ez as [(y3 & ED & Ez)|(y3 & Ey2 & Ez)].
  { destruct y3 as [|f' y3].
    - (* D ends with the blank: the rest is shorter *) cbn in Ez. rewrite <- Ez in Lr. cbn in Lr. lia.
    - cbn in Ez. injection Ez as <- _. 
      rewrite ED in LD, LwD. exact (not_inside r_second y2 b f y3 ltac:(cbn; auto) Hb Hf LwD LD). }
  apply (f_equal (@List.length _)) in Ez. rewrite app_length in Ez. cbn [List.length] in Ez. lia.
Qed.

(** ** In a text *)
Lemma landed y t m c k q post w0 intro : search true time_expression_re t = Some m -> t = y ++ (w0 ++ intro) ++ c ++ post -> m_pos m = List.length y ->
  clock_words c k q -> low (c ++ post) -> clock_stop post -> ~ range_ahead post -> (q = [] -> ~ marker_ahead post) ->
  forall p' x, rm true time_expression_re (mkst (lastc y None) ((w0 ++ intro) ++ c ++ post) []) Some = Some x -> rm true r_clock (mkst p' (c ++ post) [(1, w0)]) Some = Some x ->
  exists gap post', post = gap ++ post' /\ gap = gap_after post /\ m_str m = w0 ++ intro ++ c ++ gap /\ groups_say m 2 3 4 6 k /\ grp m 7 = [] /\ grp m 1 = w0.
Proof.
  intros Sm Et Pm Cw Lc St Nr Nm p' x R1 R2. destruct (search_at _ _ _ _ _ Sm Et Pm) as (post2 & Em & R). rewrite R1 in R. apply some_inj in R. subst x.
  destruct (clock_taken p' c k q post Cw Lc St Nr Nm) as (gap & post' & o' & cs & -> & Hg & Tk & G). exists gap, post'. split; [reflexivity|]. split; [exact Hg|].
  unfold takes in Tk. pose proof (rm_frame true [(1, w0)] r_clock (mkst p' ((c ++ gap) ++ post') []) Some Some ltac:(reflexivity)) as F. unfold addc in F at 1. cbn [s_prev s_rest s_caps app] in F. rewrite Tk in F. cbn [option_map] in F. unfold addc in F. cbn [s_prev s_rest s_caps] in F.
  rewrite <- app_assoc in F. rewrite R2 in F. apply some_inj in F. injection F as _ -> Ec.
  split; [|apply (G m w0 Ec)]. rewrite !app_assoc in Em. apply app_inv_tail in Em. rewrite <- Em, <- !app_assoc. reflexivity.
Qed.
Lemma clock_can p' w0 c k q post : clock_words c k q -> low (c ++ post) -> clock_stop post -> ~ range_ahead post -> (q = [] -> ~ marker_ahead post) -> exists s', mt true r_clock (mkst p' (c ++ post) [(1, w0)]) s'.
Proof.
  intros Cw Lc St Nr Nm. destruct (clock_taken p' c k q post Cw Lc St Nr Nm) as (gap & post' & o' & cs & -> & Hg & Tk & G). unfold takes in Tk. 
  pose proof (rm_frame true [(1, w0)] r_clock (mkst p' ((c ++ gap) ++ post') []) Some Some ltac:(reflexivity)) as F. unfold addc in F at 1. cbn [s_prev s_rest s_caps app] in F. rewrite Tk in F. cbn [option_map] in F.
  rewrite <- app_assoc in F. apply rm_sound in F as (s' & M & _). eauto.
Qed.
Lemma starts_first c k q post : clock_words c k q -> low (c ++ post) -> clock_stop post -> ~ range_ahead post -> (q = [] -> ~ marker_ahead post) -> starts_match true time_expression_re None (c ++ post).
Proof.
  intros Cw Lc St Nr Nm. destruct (clock_can None [] c k q post Cw Lc St Nr Nm) as (s' & M). exists s'. rewrite te_split.
  exists (mkst None (c ++ post) [(1, [])]). split.
  - exists (mkst None (c ++ post) []). split; [left; split; reflexivity|]. f_equal. f_equal. f_equal. symmetry. apply (consumed_eq (mkst None (c ++ post) []) (mkst None (c ++ post) []) []). reflexivity.
  - exists (mkst None (c ++ post) [(1, [])]). split; [left; reflexivity|exact M].
Qed.
Lemma starts_blank o b c k q post : is_space b = true -> clock_words c k q -> low (c ++ post) -> clock_stop post -> ~ range_ahead post -> (q = [] -> ~ marker_ahead post) -> starts_match true time_expression_re o (b :: c ++ post).
Proof.
  intros Hb Cw Lc St Nr Nm. destruct (clock_can (Some b) [b] c k q post Cw Lc St Nr Nm) as (s' & M). exists s'. rewrite te_split.
  exists (mkst (Some b) (c ++ post) [(1, [b])]). split.
  - exists (mkst (Some b) (c ++ post) []). split; [right; left; exists b, (c ++ post); split; [reflexivity|]; split; [|reflexivity]|].
    + pose proof (forall_ascii (fun c => if is_space c then set_ok true false [CClass false KSpace] c else true) ltac:(vm_compute; reflexivity) b) as Q. cbv beta in Q. rewrite Hb in Q. exact Q.
    + f_equal. f_equal. f_equal. symmetry. apply (consumed_eq (mkst o (b :: c ++ post) []) (mkst (Some b) (c ++ post) []) [b]). reflexivity.
  - exists (mkst (Some b) (c ++ post) [(1, [b])]). split; [left; reflexivity|exact M].
Qed.
(** nothing that can stand before a time starts like one *)
Lemma before_head w0 intro f v : (w0 = [] \/ exists c, w0 = [c] /\ (is_space c = true \/ c = "t"%char)) -> opening intro -> clock_head f = true -> w0 ++ intro <> f :: v.
Proof.
  intros H0 Op Hf E. destruct H0 as [->|(c & -> & H0)].
  - cbn in E. subst intro. destruct Op as [Op|(sp & _ & [Op|Op])]; [discriminate Op| |]; injection Op as -> _; discriminate Hf.
  - cbn in E. injection E as -> _. destruct H0 as [H0| ->]; [rewrite (head_not_blank f Hf) in H0; discriminate H0|discriminate Hf].
Qed.
Lemma connective_more x a : after_connective a -> after_connective (x ++ a).
Proof. intros (y & w & s & -> & Tw & B). exists (x ++ y), w, s. rewrite <- app_assoc. auto. Qed.

(** a match that begins before the time and ends inside or after it is the match of the time *)
Lemma clock_caught t m pre c k q post : search true time_expression_re t = Some m -> t = pre ++ c ++ post -> low t -> (pre = [] \/ exists a b, pre = a ++ [b] /\ is_space b = true) -> ~ after_connective pre ->
  m_pos m <= List.length pre -> List.length pre < m_pos m + List.length (m_str m) ->
  clock_words c k q -> clock_stop post -> ~ range_ahead post -> (q = [] -> ~ marker_ahead post) ->
  exists y w0 intro gap post', pre = y ++ w0 ++ intro /\ List.length y = m_pos m /\ post = gap ++ post' /\ gap = gap_after post /\ m_str m = w0 ++ intro ++ c ++ gap /\
    (w0 = [] \/ exists c, w0 = [c] /\ (is_space c = true \/ c = "t"%char)) /\ opening intro /\
    groups_say m 2 3 4 6 k /\ grp m 7 = [] /\ grp m 1 = w0.
Proof.
  intros Sm Et Lt Hp Nc P1 P2 Cw St Nr Nm. destruct (words_head _ _ _ Cw) as (f & c' & Ec & Hf).
  set (y := firstn (m_pos m) pre). set (z := skipn (m_pos m) pre). assert (Ep : pre = y ++ z) by (symmetry; apply firstn_skipn). assert (Ly : List.length y = m_pos m) by (apply firstn_length_le; exact P1).
  assert (Ety : t = y ++ z ++ c ++ post) by (rewrite Et, Ep, <- app_assoc; reflexivity).
  destruct (search_at _ _ _ _ _ Sm Ety (eq_sym Ly)) as (post2 & Em & R). pose proof Lt as Lz. rewrite Ety in Lz. apply low_app in Lz as [_ Lz].
  destruct (hour_at _ _ _ Lz R) as (w0 & intro & u & p' & Eu & Lb & H0 & Op & Rc).
  assert (Hz : z = [] \/ exists a b, z = a ++ [b] /\ is_space b = true).
  { destruct Hp as [->|(a & b & Ea & Hb)]; [left; unfold z; apply skipn_nil|]. destruct z as [|z0 z1] eqn:Ez; [auto|right]. destruct (exists_last (l := z0 :: z1)) as (a' & b' & E'); [discriminate|]. exists a', b'. split; [exact E'|].
    rewrite Ea, E', app_assoc in Ep. apply app_inj_tail in Ep as [_ ->]. exact Hb. }
  rewrite (app_assoc w0) in Eu. rewrite Ec in Eu. cbn [app] in Eu.
  assert (Ez : z = w0 ++ intro /\ u = c ++ post).
  { destruct Hz as [->|(a & b & -> & Hb)].
    - cbn [app] in Eu. destruct (w0 ++ intro) as [|x v] eqn:Ew; [rewrite Ec; auto|]. cbn in Eu. injection Eu as <- _. exfalso. exact (before_head _ _ _ _ H0 Op Hf Ew).
    - rewrite <- app_assoc in Eu. cbn [app] in Eu. symmetry in Eu. pose proof Eu as Hf2. apply cut_at in Eu as [(v & Ew & Ev)|(v & Ea & Ev)].
      + destruct v as [|f' v]; [split; [symmetry; exact Ew|rewrite Ec; symmetry; exact Ev]|]. exfalso. cbn in Ev. injection Ev as <- _.
        rewrite Ew in Lb. apply (not_inside r_before a b f v ltac:(cbn; auto) Hb Hf); [|exact Lb]. rewrite <- Ew. clear - Lz Ec Hf2.
        rewrite <- app_assoc, Ec in Lz. cbn [app] in Lz. rewrite <- Hf2 in Lz. apply low_app in Lz. apply Lz.
      + exfalso. apply Nc. rewrite Ep. apply connective_more. rewrite Ea, <- app_assoc. apply connective_more.
        destruct (rm_sound _ _ _ _ _ Rc) as (s' & M & Es). apply some_inj in Es. subst s'.
        apply (reaches_over _ _ _ _ v b f (c' ++ post)) with (2 := Hb) (3 := Hf) (4 := M); [|exact Ev|].
        * rewrite Ea, <- !app_assoc in Lz. apply low_app in Lz as [_ Lz]. apply low_app in Lz as [_ Lz]. rewrite Ev. rewrite Ec in Lz. exact Lz.
        * cbn [s_rest]. apply (f_equal (@List.length _)) in Em. rewrite Ec in Em. rewrite Ep, app_length in P2. rewrite !app_length in Em. cbn [List.length] in Em. rewrite !app_length in *. cbn [List.length] in *. lia. }
  destruct Ez as [Ez Eu']. rewrite Ez in R, Ety, Ep. rewrite Eu' in Rc. assert (Lc : low (c ++ post)) by (rewrite Ez in Lz; apply low_app in Lz; apply Lz).
  destruct (landed y t m c k q post w0 intro Sm Ety (eq_sym Ly) Cw Lc St Nr Nm p' _ R Rc) as (gap & post' & G1 & G2 & G3 & G4 & G5 & G6).
  exists y, w0, intro, gap, post'. auto 20.
Qed.
Lemma clock_scanned e ref text pre c k q post : text = pre ++ c ++ post -> low text -> (pre = [] \/ exists a b, pre = a ++ [b] /\ is_space b = true) -> ~ after_connective pre ->
  clock_words c k q -> clock_stop post -> ~ range_ahead post -> (q = [] -> ~ marker_ahead post) ->
  forall off g l g', scan e time_expression time_expression_re text ref off g l g' -> off <= List.length pre ->
  exists off' m res g1 g2 y w0 intro gap post', pre = y ++ w0 ++ intro /\ List.length y = off' + m_pos m /\ post = gap ++ post' /\ gap = gap_after post /\ m_str m = w0 ++ intro ++ c ++ gap /\
    (w0 = [] \/ exists c, w0 = [c] /\ (is_space c = true \/ c = "t"%char)) /\ opening intro /\
    groups_say m 2 3 4 6 k /\ grp m 7 = [] /\ grp m 1 = w0 /\
    search true time_expression_re (skipn off' text) = Some m /\
    p_extract time_expression e g1 (skipn off' text) m ref (Z.of_nat (off' + m_pos m)) = (g2, Ret res) /\ In (off' + m_pos m, m, res) l.
Proof.
  intros Et Lt Hp Nc Cw St Nr Nm. assert (Lc : low (c ++ post)) by (rewrite Et in Lt; apply low_app in Lt; apply Lt).
  assert (Sk : forall off, off <= List.length pre -> skipn off text = skipn off pre ++ c ++ post).
  { intros off Ho. rewrite Et, skipn_app. replace (off - List.length pre) with 0 by lia. reflexivity. }
  assert (Fd : forall off, off <= List.length pre -> exists m, search true time_expression_re (skipn off text) = Some m /\ m_pos m <= List.length pre - off).
  { intros off Ho. destruct (Nat.eq_dec off (List.length pre)) as [->|Ne].
    - destruct (search_complete true time_expression_re (skipn (List.length pre) text) [] (c ++ post)) as (m & Sm & P).
      + rewrite Sk by lia. rewrite skipn_all2 by lia. reflexivity.
      + cbn. exact (starts_first c k q post Cw Lc St Nr Nm).
      + exists m. split; [exact Sm|]. cbn in P. lia.
    - destruct Hp as [->|(a & b & Ea & Hb)]; [cbn in Ho, Ne; lia|].
      destruct (search_complete true time_expression_re (skipn off text) (skipn off a) (b :: c ++ post)) as (m & Sm & P).
      + rewrite Sk by lia. rewrite Ea, skipn_app, <- app_assoc. rewrite Ea, app_length in Ho, Ne. cbn [List.length] in Ho, Ne. replace (off - List.length a) with 0 by lia. reflexivity.
      + exact (starts_blank _ b c k q post Hb Cw Lc St Nr Nm).
      + exists m. split; [exact Sm|]. rewrite skipn_length in P. rewrite Ea, app_length. cbn [List.length]. lia. }
  intros off g l g' Sc. induction Sc as [off g Sn|off g m g1 res l g' Sm X Sc IH]; intros Ho; destruct (Fd off Ho) as (m' & Sm' & P).
  - rewrite Sn in Sm'. discriminate Sm'.
  - rewrite Sm in Sm'. apply some_inj in Sm'. subst m'.
    destruct (Nat.le_gt_cases (off + m_pos m + List.length (m_str m)) (List.length pre)) as [Le|Gt].
    + destruct (IH Le) as (off' & m0 & res0 & g3 & g4 & y & w0 & intro & gap & post' & A1 & A2 & A3 & A4 & A5 & A6 & A7 & A8 & A9 & A10 & A11 & A12 & A13).
      exists off', m0, res0, g3, g4, y, w0, intro, gap, post'. repeat (split; [assumption|]). right. exact A13.
    + assert (Hk : skipn off pre = [] \/ exists a b, skipn off pre = a ++ [b] /\ is_space b = true).
      { destruct Hp as [->|(a & b & Ea & Hb)]; [left; apply skipn_nil|]. rewrite Ea, skipn_app. destruct (off - List.length a) as [|n] eqn:En; [right; exists (skipn off a), b; auto|left].
        rewrite skipn_all2 by lia. destruct n; reflexivity. }
      destruct (clock_caught (skipn off text) m (skipn off pre) c k q post Sm (Sk off Ho)) as (y & w0 & intro & gap & post' & A1 & A2 & A3 & A4 & A5 & A6 & A7 & A8 & A9 & A10); auto.
      * rewrite <- (firstn_skipn off text) in Lt. apply low_app in Lt. apply Lt.
      * intros N. apply Nc. rewrite <- (firstn_skipn off pre). apply connective_more. exact N.
      * rewrite skipn_length. lia.
      * rewrite skipn_length. lia.
      * exists off, m, res, g, g1, (firstn off pre ++ y), w0, intro, gap, post'. split; [rewrite <- app_assoc, <- A1; symmetry; apply firstn_skipn|].
        split; [rewrite app_length, firstn_length_le, A2 by exact Ho; reflexivity|]. repeat (split; [assumption|]). left. reflexivity.
Qed.
