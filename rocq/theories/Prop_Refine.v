(** * The refiners (C46 - C53, C59, C60) *)
From Verif Require Import Base Regex RegexParse Calendar Components Utils Execute Spec View ParserSpec CalendarFacts RegexFacts ResultFacts
  ExecuteFacts ParserRe MatchFacts ParserFacts OverlapFacts ZoneFacts MergeFacts Refiners Main P_CasualDate P_TimeExpression P_ISO P_Week Prop_Execute.
From Coq Require Import ZifyBool ZifyNat Sorting.Sorted.
Open Scope string_scope.
Open Scope list_scope.
Open Scope Z_scope.

Definition jan30 : ptime := ptime_of (Moment (Cal 2024 1 30) 12 0 0) 0.
(** results of one parser on a text at noon on 30 January 2024 *)
Definition found (p : parser) (s : string) : outcome (list result) := x_res (execute env0 p gwords_init (bs s) jan30).

(** ** Overlap removal *)
(** C46.  For every list of non-empty results sorted by index. *)
Theorem C46_overlap_removal : forall rs, by_index rs -> nonempty_results rs ->
  let out := overlap_refine rs in
  sub out (map res_copy rs) /\
  (* no two results of the output overlap *) StronglySorted (fun a b => stops a <= starts b) out /\
  (* what overlaps nothing stays *)
  (forall a r b, rs = a ++ r :: b -> Forall (fun x => stops x <= starts r) a -> Forall (fun x => stops r <= starts x) b -> In (res_copy r) out) /\
  (* at least one result stays *) (rs <> [] -> out <> []) /\
  overlap_refine out = out.
Proof.
  intros rs S N. destruct rs as [|r rs].
  - cbn. repeat split; [constructor|constructor|intros a r b E; destruct a; discriminate|congruence].
  - inversion N as [|? ? Nr N']; subst. cbv zeta. rewrite (refine_loop r rs Nr).
    pose proof (by_index_map _ S) as S'. cbn [map] in S'. pose proof (copies_fixed rs) as F. pose proof (res_copy_idem r) as Hr.
    pose proof (nonempty_map _ N) as Nm. cbn [map] in Nm.
    destruct (overlap_loop_apart _ _ S' Hr F) as [A _]. pose proof (overlap_loop_sub _ _ Hr F) as Sb.
    split; [exact Sb|]. split; [exact A|]. split; [|split].
    + intros a x b E Ba Bb. apply overlap_loop_keeps; auto.
      * rewrite isEmpty_copy. unfold nonempty_results in N. rewrite Forall_forall in N. apply N. rewrite E. apply in_or_app. right; left; reflexivity.
      * exists (map res_copy a), (map res_copy b). change (res_copy r :: map res_copy rs) with (map res_copy (r :: rs)). rewrite E, map_app. split; [reflexivity|].
        split; apply Forall_forall; intros y Hy; apply in_map_iff in Hy as (z & <- & Hz).
        -- rewrite Forall_forall in Ba. exact (Ba z Hz).
        -- rewrite Forall_forall in Bb. exact (Bb z Hz).
    + intros _ E. destruct (overlap_loop_chain _ _ S' Hr F Nm (res_copy r) (or_introl eq_refl)) as (k & Ik & _). rewrite E in Ik. exact Ik.
    + assert (Fo : Forall (fun r => res_copy r = r) (overlap_loop (res_copy r) (map res_copy rs))).
      { apply Forall_forall. intros x Hx. apply (sub_in _ _ _ Sb) in Hx. destruct Hx as [<-|Hx]; [exact Hr|]. rewrite Forall_forall in F. exact (F x Hx). }
      assert (No : nonempty_results (overlap_loop (res_copy r) (map res_copy rs))).
      { apply Forall_forall. intros x Hx. apply (sub_in _ _ _ Sb) in Hx. unfold nonempty_results in Nm. rewrite Forall_forall in Nm. exact (Nm x Hx). }
      destruct (overlap_loop (res_copy r) (map res_copy rs)) as [|x l]; [reflexivity|].
      inversion Fo; subst. inversion No; subst. rewrite refine_loop by assumption.
      assert (El : map res_copy l = l). { clear -H2. induction H2 as [|y l Hy Fl IH]; [reflexivity|]. cbn. rewrite Hy, IH. reflexivity. }
      rewrite H1, El. apply apart_loop; assumption.
Qed.
Print Assumptions C46_overlap_removal.

(** three results of which the middle one overlaps the first *)
Example C46_case : exists a b c, found casual_date "tomorrow at 5 pm" = Ret [a] /\ found time_expression "tomorrow at 5 pm" = Ret [b] /\
  found casual_date "                   tomorrow" = Ret [c] /\
  by_index [a; b; c] /\ nonempty_results [a; b; c] /\ overlap_refine [a; b; c] = [a; c].
Proof.
  do 3 eexists. split; [vm_compute; reflexivity|]. split; [vm_compute; reflexivity|]. split; [vm_compute; reflexivity|].
  split; [repeat constructor; vm_compute; discriminate|]. split; [repeat constructor; vm_compute; reflexivity|]. vm_compute. reflexivity.
Qed.

(** C47, false: in a chain a - b - c of growing results a is dropped for b and b for c, although c does not overlap a. *)
Theorem C47_dropped_refuted : exists a b c, by_index [a; b; c] /\ nonempty_results [a; b; c] /\
  overlap_refine [a; b; c] = [c] /\ stops a <= starts c /\ ~ overlap a c.
Proof.
  exists (res_new 0 0 (bs "aaaa")), (res_new 0 2 (bs "bbbbb")), (res_new 0 5 (bs "cccccc")).
  split; [repeat constructor; vm_compute; discriminate|]. split; [repeat constructor; vm_compute; reflexivity|]. split; [vm_compute; reflexivity|].
  split; [vm_compute; discriminate|]. unfold overlap, starts, stops. change (getIndex (res_new 0 0 (bs "aaaa"))) with 0. change (getIndex (res_new 0 5 (bs "cccccc"))) with 5.
  change (textLength (res_new 0 0 (bs "aaaa"))) with 4. lia.
Qed.
Print Assumptions C47_dropped_refuted.

(** What holds: from every input result a chain of inputs, each overlapping the previous one and at least as long,
    leads to a kept result.  (A result that is kept is the chain of length 0.) *)
Theorem C47_dropped_partial : forall rs r, by_index rs -> nonempty_results rs -> In r rs ->
  exists k, In k (overlap_refine rs) /\ chain (map res_copy rs) (res_copy r) k.
Proof.
  intros rs r S N I. destruct rs as [|x rs]; [contradiction|]. inversion N as [|? ? Nx N']; subst. rewrite (refine_loop x rs Nx).
  apply (overlap_loop_chain (map res_copy rs) (res_copy x)); [exact (by_index_map _ S)|apply res_copy_idem|apply copies_fixed|exact (nonempty_map _ N)|].
  change (res_copy x :: map res_copy rs) with (map res_copy (x :: rs)). apply in_map. exact I.
Qed.
Print Assumptions C47_dropped_partial.
(** ... in particular, of two results that overlap the one kept is the longer, the first one if they are equally long. *)
Theorem C47_two_results : forall a b, starts a <= starts b < stops a -> 0 < textLength b ->
  overlap_refine [a; b] = [if textLength a <? textLength b then res_copy b else res_copy a].
Proof.
  intros a b O Lb. unfold starts, stops in O.
  assert (Na : isEmpty a = false) by (unfold isEmpty, textLength in *; destruct (r_text a); cbn in *; lia).
  assert (Nb : isEmpty b = false) by (unfold isEmpty, textLength in *; destruct (r_text b); cbn in *; lia).
  rewrite refine_loop by exact Na. cbn [map overlap_loop]. unfold res_assign. rewrite !res_copy_idem.
  change (getIndex (res_copy b)) with (getIndex b). unfold res_stop. change (getIndex (res_copy a)) with (getIndex a).
  change (textLength (res_copy a)) with (textLength a). change (textLength (res_copy b)) with (textLength b).
  destruct (getIndex b <? getIndex a + textLength a) eqn:E; [|lia].
  destruct (textLength a <? textLength b); rewrite isEmpty_copy; [rewrite Nb|rewrite Na]; reflexivity.
Qed.
Print Assumptions C47_two_results.
Example C47_case : exists a b, found casual_date "tomorrow at 5 pm" = Ret [a] /\ found time_expression "tomorrow at 5 pm" = Ret [b] /\
  starts a <= starts b < stops a /\ 0 < textLength b /\ overlap_refine [a; b] = [a].
Proof.
  do 2 eexists. split; [vm_compute; reflexivity|]. split; [vm_compute; reflexivity|]. split; [split; vm_compute; [discriminate|reflexivity]|].
  split; [vm_compute; reflexivity|]. vm_compute. reflexivity.
Qed.

(** ** Time zones *)
(** equal for every observer *)
Definition same_result (r r' : result) : Prop :=
  r_anchor r' = r_anchor r /\ getIndex r' = getIndex r /\ r_text r' = r_text r /\ r_start r' = r_start r /\
  has_end r' = has_end r /\ (has_end r = true -> r_endc r' = r_endc r) /\ forall m, tag_is m r' = tag_is m r.
(** a clock time followed by a known zone abbreviation (of [k] minutes) and nothing else *)
Definition zoned (text : bytes) (r : result) (abbr : bytes) (k : Z) : Prop :=
  tag_is TTimeExpression r = true /\ stops r <= Z.of_nat (List.length text) /\
  zone_tail (skipn (Z.to_nat (stops r)) text) abbr /\ zone_minutes abbr k.
(** the offset of the start is left alone *)
Definition keeps_offset (r : result) : bool :=
  is_certain TzOffset (r_start r) && negb (has_end r && negb (is_certain TzOffset (r_endc r))).

(** [p'] is [p] with the offset certain and equal to [k] *)
Definition with_offset (k : Z) (p p' : pc) : Prop :=
  certain TzOffset k p' /\ forall f, f <> TzOffset -> api_get f p' = api_get f p /\ is_certain f p' = is_certain f p.
Lemma with_offset_set k p : with_offset k p (setTimeZoneOffset k p).
Proof. split; [split; reflexivity|]. intros f N. destruct f; try congruence; split; reflexivity. Qed.
Lemma with_offset_twice k p : with_offset k p (setTimeZoneOffset k (setTimeZoneOffset k p)).
Proof. split; [split; reflexivity|]. intros f N. destruct f; try congruence; split; reflexivity. Qed.

Lemma getTag_same m r : same_result r (snd (getTag m r)).
Proof.
  unfold same_result, getTag. destruct (r_tags r m) as [b|] eqn:E; cbn [snd]; [repeat split|]. do 5 (split; [reflexivity|]).
  split; [reflexivity|]. intros x. rewrite !tag_is_tags. cbn [r_tags with_tags]. destruct (mod_eqb x m) eqn:Q; [|reflexivity].
  apply mod_eqb_spec in Q as ->. rewrite E. reflexivity.
Qed.
Lemma zone_of_dec text r : (exists abbr k, zoned text r abbr k) \/ ~ (exists abbr k, zoned text r abbr k).
Proof.
  unfold zoned. destruct (tag_is TTimeExpression r); [|right; intros (? & ? & H & _); discriminate].
  destruct (Z_le_dec (stops r) (Z.of_nat (List.length text))) as [L|L]; [|right; intros (? & ? & _ & H & _); lia].
  destruct (full_match true tz_re (skipn (Z.to_nat (stops r)) text)) as [m|] eqn:F.
  - pose proof (tz_match_inv _ _ F) as T. destruct (tbl_find (to_upper (grp m 1)) TIMEZONES) as [k|] eqn:K.
    + left. exists (grp m 1), k. repeat split; auto. apply zone_find. exact K.
    + right. intros (a & k & _ & _ & T' & Zk). assert (a = grp m 1) by (eapply zone_tail_fun; eauto). subst. apply zone_find in Zk. congruence.
  - right. intros (a & k & _ & _ & T & _). apply tz_match_intro in T as (m & E & _). congruence.
Qed.

Lemma tz_one_spec text r :
  let r' := res_copy (tz_one tz_re text r) in
  (~ (exists abbr k, zoned text r abbr k) -> same_result r r') /\
  (forall abbr k, zoned text r abbr k ->
     r_anchor r' = r_anchor r /\ getIndex r' = getIndex r /\ r_text r' = abbr /\ has_end r' = has_end r /\
     (has_end r = true -> r_endc r' = r_endc r) /\
     (if keeps_offset r then r_start r' = r_start r
      else with_offset k (r_start r) (r_start r')) /\
     (forall m, tag_is m r' = match r_tags r m with Some b => b | None => mod_eqb m TExtractTZ end)).
Proof.
  cbv zeta. unfold tz_one. pose proof (getTag_same TTimeExpression r) as G.
  destruct (getTag TTimeExpression r) as [b r1] eqn:E. cbn [snd] in G.
  assert (Tb : b = tag_is TTimeExpression r) by (unfold tag_is; rewrite E; reflexivity).
  assert (Tr : forall m, m <> TTimeExpression -> r_tags r1 m = r_tags r m).
  { intros m N. replace r1 with (snd (getTag TTimeExpression r)) by (rewrite E; reflexivity). rewrite getTag_tags.
    destruct (r_tags r m); [reflexivity|]. destruct (mod_eqb m TTimeExpression) eqn:Q; [apply mod_eqb_spec in Q; congruence|reflexivity]. }
  destruct G as (Ga & Gi & Gt & Gs & Ge & Gc & Gg).
  assert (Sm : same_result r (res_copy r1)).
  { unfold same_result. destruct (copy_preserves r1) as (A1 & A2 & A3 & A4 & A5 & A6 & A7 & _). rewrite A1, A2, A3, A5, A6. rewrite Ga, Gi, Gt, Gs, Ge.
    repeat (split; [reflexivity|]). split; [intros H; rewrite <- (Gc H); apply A7; congruence|]. intros m. rewrite <- Gg. rewrite !tag_is_tags, A4. reflexivity. }
  destruct b.
  2:{ split; [intros _; exact Sm|]. intros abbr k (H & _). congruence. }
  assert (St : res_stop r1 = stops r) by (unfold res_stop, stops, textLength; rewrite Gi, Gt; reflexivity). rewrite St.
  unfold substrZ. destruct (Z.of_nat (List.length text) <? stops r) eqn:L.
  { split; [intros _; exact Sm|]. intros abbr k (_ & H & _). lia. }
  rewrite Z.min_id. rewrite Nat2Z.id. rewrite firstn_all2 by (rewrite skipn_length; lia).
  destruct (full_match true tz_re (skipn (Z.to_nat (stops r)) text)) as [m|] eqn:F.
  2:{ split; [intros _; exact Sm|]. intros abbr k (_ & _ & T & _). apply tz_match_intro in T as (m & E' & _). congruence. }
  pose proof (tz_match_inv _ _ F) as T.
  destruct (tbl_find (to_upper (grp m 1)) TIMEZONES) as [k|] eqn:K.
  2:{ split; [intros _; exact Sm|]. intros abbr k (_ & _ & T' & Zk). assert (abbr = grp m 1) by (eapply zone_tail_fun; eauto). subst. apply zone_find in Zk. congruence. }
  split.
  { intros N. exfalso. apply N. exists (grp m 1), k. repeat split; auto; [lia|]. apply zone_find. exact K. }
  intros abbr k' (_ & _ & T' & Zk). assert (abbr = grp m 1) by (eapply zone_tail_fun; eauto). subst abbr. apply zone_find in Zk. rewrite K in Zk. injection Zk as <-.
  change (isCertain "tzoffset" (r_start r1)) with (is_certain TzOffset (r_start r1)). rewrite Gs.
  set (r2 := if is_certain TzOffset (r_start r) then r1 else with_start (setTimeZoneOffset k (r_start r)) r1).
  assert (R2 : r_anchor r2 = r_anchor r1 /\ r_index r2 = r_index r1 /\ r_endc r2 = r_endc r1 /\ r_hasend r2 = r_hasend r1 /\ r_tags r2 = r_tags r1 /\
               r_start r2 = if is_certain TzOffset (r_start r) then r_start r else setTimeZoneOffset k (r_start r)).
  { unfold r2. destruct (is_certain TzOffset (r_start r)); repeat split. exact Gs. }
  destruct R2 as (B1 & B2 & B3 & B4 & B5 & B6).
  change (isCertain "tzoffset" (r_endc r2)) with (is_certain TzOffset (r_endc r2)).
  set (r3 := if has_end r2 && negb (is_certain TzOffset (r_endc r2)) then with_start (setTimeZoneOffset k (r_start r2)) r2 else r2).
  assert (R3 : r_anchor r3 = r_anchor r /\ r_index r3 = r_index r /\ r_endc r3 = r_endc r1 /\ r_hasend r3 = r_hasend r1 /\ r_tags r3 = r_tags r1).
  { unfold r3. destruct (has_end r2 && negb (is_certain TzOffset (r_endc r2))); cbn [r_anchor r_index r_endc r_hasend r_tags with_start]; rewrite B1, B2, B3, B4, B5, Ga; repeat split; exact Gi. }
  assert (S3 : if keeps_offset r then r_start r3 = r_start r else with_offset k (r_start r) (r_start r3)).
  { unfold r3, keeps_offset. replace (has_end r2) with (has_end r) by (unfold has_end in *; congruence).
    assert (Ee : has_end r = true -> r_endc r2 = r_endc r) by (intros H; rewrite B3; auto).
    destruct (has_end r); [rewrite (Ee eq_refl)|cbn [andb]; rewrite B6];
      [destruct (is_certain TzOffset (r_endc r)); cbn [andb negb]; [rewrite B6|cbn [r_start with_start]; rewrite B6; rewrite andb_false_r]|];
      destruct (is_certain TzOffset (r_start r)); cbn [andb negb];
      first [reflexivity|apply with_offset_set|apply with_offset_twice]. }
  destruct R3 as (C1 & C2 & C3 & C4 & C5). clearbody r3. clear r2 B1 B2 B3 B4 B5 B6 F.
  pose proof (setTag_rest TExtractTZ (setText (grp m 1) r3)) as (D1 & D2 & D3 & D4 & D5 & D6).
  unfold getIndex, has_end. cbn [r_anchor r_index r_text r_hasend r_endc r_start res_copy]. rewrite D1, D2, D3, D4, D5, D6.
  cbn [r_anchor r_index r_text r_hasend r_endc r_start setText].
  split; [exact C1|]. split; [exact C2|]. split; [reflexivity|]. split; [unfold has_end in Ge; congruence|].
  split; [intros H; rewrite C4, C3; unfold has_end in Ge, Gc; rewrite Ge, H; apply Gc; exact H|]. split; [exact S3|].
  intros x. rewrite tag_is_tags. cbn [r_tags res_copy]. rewrite setTag_tags. cbn [r_tags setText]. rewrite C5.
  destruct (mod_eqb x TTimeExpression) eqn:Q.
  - apply mod_eqb_spec in Q as ->. specialize (Gg TTimeExpression). rewrite <- Tb in Gg. rewrite tag_is_tags in Gg, Tb.
    destruct (r_tags r1 TTimeExpression) as [[]|]; try discriminate. destruct (r_tags r TTimeExpression) as [[]|]; try discriminate. reflexivity.
  - assert (x <> TTimeExpression) by (intros ->; rewrite mod_eqb_refl in Q; discriminate). rewrite Tr by assumption.
    destruct (r_tags r x); [reflexivity|]. destruct (mod_eqb x TExtractTZ); reflexivity.
Qed.

Lemma tz_refine_total rs text : tz_refine rs text = Ret (map (fun x => res_copy (tz_one tz_re text (res_copy x))) rs).
Proof. unfold tz_refine, with_re. rewrite tz_compile, map_map. reflexivity. Qed.

Lemma same_copy r : same_result r (res_copy r).
Proof.
  destruct (copy_preserves r) as (A1 & A2 & A3 & A4 & A5 & A6 & A7 & _). unfold same_result. rewrite A1, A2, A3, A5, A6. repeat (split; [reflexivity|]).
  split; [exact A7|]. intros m. rewrite !tag_is_tags, A4. reflexivity.
Qed.
Lemma zoned_copy text r abbr k : zoned text (res_copy r) abbr k <-> zoned text r abbr k.
Proof. unfold zoned. rewrite (tag_is_tags _ (res_copy r)). cbn [r_tags res_copy]. rewrite <- tag_is_tags. reflexivity. Qed.

Lemma Forall2_len {A B} (P : A -> B -> Prop) l l' : Forall2 P l l' -> List.length l = List.length l'.
Proof. induction 1; cbn; congruence. Qed.
(** C48, exact for every list of results and every text; [refuted] below says where it departs from the claim. *)
Theorem C48_zone_refiner_partial : forall rs text, exists out, tz_refine rs text = Ret out /\
  Forall2 (fun r r' =>
    (~ (exists abbr k, zoned text r abbr k) -> same_result r r') /\
    (forall abbr k, zoned text r abbr k ->
       r_anchor r' = r_anchor r /\ getIndex r' = getIndex r /\ r_text r' = abbr /\ has_end r' = has_end r /\
       (has_end r = true -> r_endc r' = r_endc r) /\
       (if is_certain TzOffset (r_start r) && negb (has_end r && negb (is_certain TzOffset (r_endc r)))
        then r_start r' = r_start r else with_offset k (r_start r) (r_start r')) /\
       (forall m, tag_is m r' = match r_tags r m with Some b => b | None => mod_eqb m TExtractTZ end))) rs out.
Proof.
  intros rs text. exists (map (fun x => res_copy (tz_one tz_re text (res_copy x))) rs). split; [apply tz_refine_total|].
  induction rs as [|r rs IH]; cbn [map]; constructor; [|exact IH].
  destruct (tz_one_spec text (res_copy r)) as [P1 P2]. pose proof (same_copy r) as (A1 & A2 & A3 & A4 & A5 & A6 & A7). split.
  - intros N. assert (N' : ~ (exists abbr k, zoned text (res_copy r) abbr k)) by (intros (a & k & Z); apply (proj1 (zoned_copy _ _ _ _)) in Z; apply N; exists a, k; exact Z).
    destruct (P1 N') as (B1 & B2 & B3 & B4 & B5 & B6 & B7). unfold same_result. rewrite B1, B2, B3, B4, B5. rewrite A1, A2, A3, A4, A5.
    repeat (split; [reflexivity|]). split; [intros H; rewrite <- (A6 H); apply B6; congruence|]. intros m. rewrite B7. apply A7.
  - intros abbr k Z. apply (proj2 (zoned_copy _ _ _ _)) in Z. destruct (P2 abbr k Z) as (B1 & B2 & B3 & B4 & B5 & B6 & B7).
    rewrite B1, B2, B3, B4. split; [exact A1|]. split; [exact A2|]. split; [reflexivity|]. split; [exact A5|].
    split; [intros H; rewrite <- (A6 H); apply B5; congruence|]. split; [|exact B7].
    unfold keeps_offset in B6. rewrite A4, A5 in B6. destruct (has_end r); [rewrite A6 in B6 by reflexivity|]; exact B6.
Qed.
Print Assumptions C48_zone_refiner_partial.

Example C48_case : exists r r', found time_expression "at 5 pm est" = Ret [r] /\ zoned (bs "at 5 pm est") r (bs "est") (-300) /\
  tz_refine [r] (bs "at 5 pm est") = Ret [r'] /\ toDate r = Ret (bs "2024-Jan-30 17:00:00") /\ toDate r' = Ret (bs "2024-Jan-30 12:00:00").
Proof.
  do 2 eexists. split; [vm_compute; reflexivity|]. split.
  { split; [vm_compute; reflexivity|]. split; [vm_compute; discriminate|]. split; [|vm_compute; tauto].
    exists [], [], []. split; [vm_compute; reflexivity|]. split; [constructor|]. split; [left; reflexivity|]. split; [left; reflexivity|].
    split; [vm_compute; split; repeat constructor|]. repeat constructor. }
  split; [vm_compute; reflexivity|]. split; vm_compute; reflexivity.
Qed.

(** C48, false in one corner: the start's certain offset is overwritten when the result has an end without a certain offset. *)
Theorem C48_zone_refiner_refuted : exists r r', certain TzOffset 60 (r_start r) /\ tz_refine [r] (bs "at 5 pm est") = Ret [r'] /\
  certain TzOffset (-300) (r_start r').
Proof.
  exists (setTag TTimeExpression (makeEndDateValid (with_start (setTimeZoneOffset 60 (setHour 17 pc_default)) (res_new 0 0 (bs "at 5 pm"))))).
  eexists. split; [split; vm_compute; reflexivity|]. split; [vm_compute; reflexivity|]. split; vm_compute; reflexivity.
Qed.
Print Assumptions C48_zone_refiner_refuted.

(** C49, false: any text after the abbreviation makes the refiner ignore it. *)
Theorem C49_zone_honoured_refuted : exists r r', found time_expression "5 pm est tomorrow" = Ret [r] /\
  tz_refine [r] (bs "5 pm est tomorrow") = Ret [r'] /\ toDate r' = Ret (bs "2024-Jan-30 17:00:00") /\ tag_is TExtractTZ r' = false.
Proof.
  do 2 eexists. split; [vm_compute; reflexivity|]. split; [vm_compute; reflexivity|]. split; vm_compute; reflexivity.
Qed.
Print Assumptions C49_zone_honoured_refuted.

(** What holds: an abbreviation that ends the text is honoured, for every clock time without a certain offset. *)
Theorem C49_zone_honoured_partial : forall pre text r abbr k, zoned text r abbr k -> is_certain TzOffset (r_start r) = false ->
  r_tags r TExtractTZ = None ->
  exists out r', tz_refine (pre ++ [r]) text = Ret (out ++ [r']) /\ List.length out = List.length pre /\
    certain TzOffset k (r_start r') /\ tag_is TExtractTZ r' = true /\
    (* and toDate shows the moment shifted by [k] minutes *)
    (forall t t', denotes (r_start r) t -> real_moment t -> seconds_after (60 * k) t t' -> real_moment t' -> has_end r = false ->
       toDate r' = Ret (bs (written t'))).
Proof.
  intros pre text r abbr k Z N Tg. destruct (C48_zone_refiner_partial (pre ++ [r]) text) as (out & E & F).
  apply Forall2_app_inv_l in F as (o1 & o2 & F1 & F2 & ->). inversion F2 as [|? r' ? ? H F3]; subst. inversion F3; subst.
  exists o1, r'. split; [exact E|]. split; [symmetry; eapply Forall2_len; exact F1|].
  destruct H as [_ H]. destruct (H _ _ Z) as (_ & _ & _ & He & _ & S & T). rewrite N in S. cbn [andb] in S. destruct S as [S1 S2].
  split; [exact S1|]. assert (Tx : tag_is TExtractTZ r' = true) by (rewrite T, Tg; reflexivity). split; [exact Tx|].
  intros t t' D R Sa R' Hn. apply toDate_shifted with (t := t); [|exact R|exact Tx|congruence|apply R'|].
  - destruct D as (Y & M & Dd & Hh & Mi & Se).
    pose proof (S2 Year ltac:(discriminate)) as [E1 _]. pose proof (S2 Month ltac:(discriminate)) as [E2 _]. pose proof (S2 MDay ltac:(discriminate)) as [E3 _].
    pose proof (S2 Hour ltac:(discriminate)) as [E4 _]. pose proof (S2 Min ltac:(discriminate)) as [E5 _]. pose proof (S2 Sec ltac:(discriminate)) as [E6 _].
    cbn [api_get] in *. unfold denotes. rewrite E1, E2, E3, E4, E5, E6. auto 10.
  - destruct S1 as [_ S1]. cbn [api_get] in S1. rewrite S1. exact Sa.
Qed.
Print Assumptions C49_zone_honoured_partial.

(** ** Merging dates and times *)
Lemma no_clock_copy r : (has_end r = true -> no_clock (r_endc r)) -> has_end (res_copy r) = true -> no_clock (r_endc (res_copy r)).
Proof. intros H He. cbn [res_copy r_endc]. unfold has_end in *. cbn [r_hasend res_copy] in He. rewrite He. auto. Qed.

(** C50.  Merging a date with a time, in either order, for every text. *)
Theorem C50_merge_partial : forall text d t l out, date_only d -> time_only t -> ~ (date_only t /\ time_only d) ->
  no_clock (r_start d) -> (has_end d = true -> no_clock (r_endc d)) -> (l = [d; t] \/ l = [t; d]) ->
  mdt_refine l text = Ret out ->
  exists m rest, out = m :: rest /\ joined text (res_copy d) (res_copy t) m.
Proof.
  intros text d t l out Dd Tt Nx Nc Ne Hl H.
  assert (Cd : forall r, date_only (res_copy r) <-> date_only r) by reflexivity.
  assert (Ct : forall r, time_only (res_copy r) <-> time_only r) by reflexivity.
  assert (exists m rest, out = m :: rest /\ mdt_merge text (res_copy d) (res_copy t) = Ret m) as (m & rest & -> & Hm).
  { destruct Hl as [-> | ->]; unfold mdt_refine in H; cbn [map mdt_loop] in H; apply bind_ret in H as (x & P & H); apply mdt_pair_inv in P;
      (destruct x as [[d' t']|]; [|exfalso; apply P; unfold complementary; rewrite !Cd, !Ct; tauto]);
      destruct P as (C & D' & T'); apply bind_ret in H as (m & Hm & H); apply bind_ret in H as (o & _ & H); injection H as <-; exists m, o; (split; [reflexivity|]);
      destruct C as [[-> ->]|[-> ->]]; rewrite ?Cd, ?Ct in *; tauto. }
  exists m, rest. split; [reflexivity|]. apply merged_joined; [exact Hm|exact Nc|apply no_clock_copy; exact Ne].
Qed.
Print Assumptions C50_merge_partial.

(** ... so the merged result is the date of the one at the clock time of the other, and prints it *)
Theorem C50_merge_moment : forall text d t c h mi s m, joined text d t m -> on_date (r_start d) c ->
  getHour (r_start t) = h -> getMinute (r_start t) = mi -> getSeconds (r_start t) = s ->
  denotes (r_start m) (Moment c h mi s) /\
  (real_moment (Moment c h mi s) -> has_end d = false -> has_end t = false -> tag_is TExtractTZ m = false ->
   toDate m = Ret (bs (written (Moment c h mi s)))).
Proof.
  intros text d t c h mi s m J (O1 & O2 & O3) H1 H2 H3.
  destruct J as ((Jd & Jt & _) & _ & _ & _ & He & _).
  assert (Dn : denotes (r_start m) (Moment c h mi s)).
  { destruct (Jd Year ltac:(cbn; tauto)) as [E1 _]. destruct (Jd Month ltac:(cbn; tauto)) as [E2 _]. destruct (Jd MDay ltac:(cbn; tauto)) as [E3 _].
    pose proof (Jt Hour ltac:(cbn; tauto)) as E4. pose proof (Jt Min ltac:(cbn; tauto)) as E5. pose proof (Jt Sec ltac:(cbn; tauto)) as E6.
    cbn [api_get] in *. unfold denotes. cbn [mdate mhour mmin msec cy cm cd]. rewrite E1, E2, E3, E4, E5, E6. auto 10. }
  split; [exact Dn|]. intros R Hd Ht Tg. apply toDate_start; auto. rewrite He, Hd, Ht. reflexivity.
Qed.
Print Assumptions C50_merge_moment.

(** ... a clock range whose end is earlier than its start ends on the next calendar day, if the date is not the last day of its month *)
Theorem C50_next_day_partial : forall text d t c h mi s h2 mi2 s2 m, joined text d t m -> on_date (r_start d) c ->
  has_end d = false -> has_end t = true ->
  getHour (r_start t) = h -> getMinute (r_start t) = mi -> getSeconds (r_start t) = s ->
  getHour (r_endc t) = h2 -> getMinute (r_endc t) = mi2 -> getSeconds (r_endc t) = s2 ->
  real_moment (Moment c h mi s) -> real_moment (Moment c h2 mi2 s2) -> 
  (cd c < month_len (cy c) (cm c) -> sec_count (Moment c h2 mi2 s2) < sec_count (Moment c h mi s) ->
   denotes (r_endc m) (Moment (next_day c) h2 mi2 s2)) /\
  (sec_count (Moment c h mi s) <= sec_count (Moment c h2 mi2 s2) -> denotes (r_endc m) (Moment c h2 mi2 s2)).
Proof.
  intros text d t c h mi s h2 mi2 s2 m J O Hd Ht H1 H2 H3 E1 E2 E3 R1 R2.
  destruct (C50_merge_moment _ _ _ _ _ _ _ _ J O H1 H2 H3) as [Ds _].
  destruct J as (_ & _ & _ & _ & He & J & _). rewrite Hd, Ht in He. destruct (J He) as (e & De & _ & Jn). rewrite Hd, Ht in De.
  destruct (Jn Hd) as (te & ts & P1 & P2 & Q).
  assert (Dn : denotes e (Moment c h2 mi2 s2)).
  { destruct De as (Jd & Jt & _). destruct O as (O1 & O2 & O3).
    destruct (Jd Year ltac:(cbn; tauto)) as [F1 _]. destruct (Jd Month ltac:(cbn; tauto)) as [F2 _]. destruct (Jd MDay ltac:(cbn; tauto)) as [F3 _].
    pose proof (Jt Hour ltac:(cbn; tauto)) as F4. pose proof (Jt Min ltac:(cbn; tauto)) as F5. pose proof (Jt Sec ltac:(cbn; tauto)) as F6.
    cbn [api_get] in *. unfold denotes. cbn [mdate mhour mmin msec cy cm cd]. rewrite F1, F2, F3, F4, F5, F6. auto 10. }
  rewrite (pc_date_denotes _ _ Dn R2) in P1. rewrite (pc_date_denotes _ _ Ds R1) in P2. injection P1 as <-. injection P2 as <-.
  unfold ptime_of in Q. cbn [mdate mhour mmin msec] in Q. unfold sec_count. cbn [mdate mhour mmin msec].
  destruct (dn_of c * DAY + (3600 * h2 + 60 * mi2 + s2) * SEC + 0 <? dn_of c * DAY + (3600 * h + 60 * mi + s) * SEC + 0) eqn:L; unfold SEC in L; split.
  - intros Lm _. destruct Q as (Q1 & _ & Q2). destruct Dn as (D1 & D2 & D3 & D4 & D5 & D6). cbn [mdate mhour mmin msec] in *.
    unfold next_day. replace (cd c <? month_len (cy c) (cm c)) with true by lia.
    destruct (Q2 Year ltac:(discriminate)) as [F1 _]. destruct (Q2 Month ltac:(discriminate)) as [F2 _].
    destruct (Q2 Hour ltac:(discriminate)) as [F4 _]. destruct (Q2 Min ltac:(discriminate)) as [F5 _]. destruct (Q2 Sec ltac:(discriminate)) as [F6 _].
    cbn [api_get] in *. unfold denotes. cbn [mdate mhour mmin msec cy cm cd]. rewrite F1, F2, Q1, F4, F5, F6, D1, D2, D3, D4, D5, D6. auto 10.
  - intros X. exfalso. lia.
  - intros _ X. exfalso. lia.
  - intros _. rewrite Q. exact Dn.
Qed.
Print Assumptions C50_next_day_partial.

(** C50, false: on the last day of a month the end is moved to day 32, and printing the result throws. *)
Definition jan31 : ptime := ptime_of (Moment (Cal 2024 1 31) 12 0 0) 0.
Theorem C50_next_day_refuted : exists d t m rest,
  x_res (execute env0 casual_date gwords_init (bs "from 11 pm to 1 am; today") jan31) = Ret [d] /\
  x_res (execute env0 time_expression gwords_init (bs "from 11 pm to 1 am; today") jan31) = Ret [t] /\
  date_only d /\ time_only t /\ no_clock (r_start d) /\
  mdt_refine [t; d] (bs "from 11 pm to 1 am; today") = Ret (m :: rest) /\ get_mDay (r_endc m) = 32 /\ toDate m = Throw OutOfRange.
Proof.
  do 4 eexists. split; [vm_compute; reflexivity|]. split; [vm_compute; reflexivity|]. split; [vm_compute; reflexivity|]. split; [vm_compute; auto|].
  split; [intros f [<-|[<-|[<-|[]]]]; vm_compute; reflexivity|]. split; [vm_compute; reflexivity|]. split; [vm_compute; reflexivity|]. vm_compute; reflexivity.
Qed.
Print Assumptions C50_next_day_refuted.
Example C50_case : exists d t m rest,
  found casual_date "from 11 pm to 1 am; today" = Ret [d] /\ found time_expression "from 11 pm to 1 am; today" = Ret [t] /\
  date_only d /\ time_only t /\ ~ (date_only t /\ time_only d) /\ no_clock (r_start d) /\ has_end d = false /\ has_end t = true /\
  on_date (r_start d) (Cal 2024 1 30) /\
  mdt_refine [t; d] (bs "from 11 pm to 1 am; today") = Ret (m :: rest) /\ toDate m = Ret (bs "2024-Jan-30 23:00:00 - 2024-Jan-31 01:00:00").
Proof.
  do 4 eexists. split; [vm_compute; reflexivity|]. split; [vm_compute; reflexivity|]. split; [vm_compute; reflexivity|]. split; [vm_compute; auto|].
  split; [intros [E _]; vm_compute in E; discriminate|].
  split; [intros f [<-|[<-|[<-|[]]]]; vm_compute; reflexivity|]. split; [vm_compute; reflexivity|]. split; [vm_compute; reflexivity|].
  split; [vm_compute; auto|]. split; [vm_compute; reflexivity|]. vm_compute; reflexivity.
Qed.

(** C51, false: when the last two results are merged, the last one is also kept. *)
Theorem C51_once_refuted : exists d t m, found casual_date "today is the day, 5 pm" = Ret [d] /\ found time_expression "today is the day, 5 pm" = Ret [t] /\
  mdt_refine [d; t] (bs "today is the day, 5 pm") = Ret [m; t] /\ joined (bs "today is the day, 5 pm") d t m /\ m <> t.
Proof.
  do 3 eexists. split; [vm_compute; reflexivity|]. split; [vm_compute; reflexivity|]. split; [vm_compute; reflexivity|].
  split.
  - apply merged_joined; [vm_compute; reflexivity| |vm_compute; discriminate]. intros f [<-|[<-|[<-|[]]]]; vm_compute; reflexivity.
  - intros E. apply (f_equal getIndex) in E. vm_compute in E. discriminate.
Qed.
Print Assumptions C51_once_refuted.

(** What holds, exactly: the input is cut into single results and neighbouring pairs of a date and a time; each single
    result is output as it is, each pair as one merged result, in order; a result that is left alone could not be merged with the next
    one; and nothing else is output, except that the last result comes once more if it was merged. *)
Theorem C51_once_partial : forall rs text out, nonempty_results rs -> mdt_refine rs text = Ret out ->
  exists plan outs, flat_map members plan = map res_copy rs /\ Forall2 (mdt_made text) plan outs /\ maximal complementary plan /\
    (out = outs \/ out = outs ++ repeated plan).
Proof.
  intros rs text out N H. destruct rs as [|a [|b rs]].
  - unfold mdt_refine in H; cbn [map] in H. injection H as <-. exists [], []. repeat split; auto.
  - unfold mdt_refine in H; cbn [map] in H. injection H as <-. exists [One (res_copy a)], [res_copy a]. repeat split; auto. repeat constructor.
  - unfold mdt_refine in H. cbn [map] in H. pose proof (nonempty_map _ N) as N'. cbn [map] in N'.
    destruct (fun A B => mdt_loop_plan text _ _ _ out (le_n _) A B N' H) as (plan & outs & P1 & P2 & P3 & P4); [discriminate|intros x X; discriminate|].
    exists plan, outs. auto.
Qed.
Print Assumptions C51_once_partial.
(** ... and it does return, when no result is a range *)
Lemma mdt_returns text : forall n l curr, (List.length l <= n)%nat -> Forall (fun r => starts r <= Z.of_nat (List.length text) /\ stops r <= Z.of_nat (List.length text) /\ has_end r = false) l ->
  exists out, mdt_loop text curr l = Ret out.
Proof.
  induction n as [|n IH]; intros l curr Ln F; [destruct l; [|cbn in Ln; lia]; cbn; eauto|].
  destruct l as [|a [|b rest]]; [cbn; eauto|cbn; eauto|]. inversion F as [|? ? (A1 & A2 & A3) F']; subst. inversion F' as [|? ? (B1 & B2 & B3) Fr]; subst.
  cbn [mdt_loop]. assert (P : exists x, mdt_pair text a b = Ret x).
  { unfold mdt_pair. rewrite !mdt_able_val. replace (stops a <=? Z.of_nat (List.length text)) with true by lia.
    destruct (isDateOnly a && isTimeOnly b); [cbn; eauto|]. destruct (isDateOnly b && isTimeOnly a); cbn; eauto. }
  destruct P as (x & P). rewrite P. cbn [bind]. apply mdt_pair_inv in P.
  assert (Mg : forall d t, starts d <= Z.of_nat (List.length text) -> has_end d = false -> has_end t = false -> exists m, mdt_merge text d t = Ret m).
  { intros d t S1 Hd Ht. unfold mdt_merge, mdt_end. change (has_end (res_copy d)) with (has_end d). change (has_end (res_copy t)) with (has_end t).
    rewrite Hd, Ht. cbn [orb bind]. unfold substrZ. change (getIndex (res_copy d)) with (starts d). change (getIndex (res_copy t)) with (starts t).
    destruct (Z.of_nat (List.length text) <? Z.min (starts d) (starts t)) eqn:E; [lia|]. cbn [bind]. eauto. }
  destruct x as [[d t]|].
  - assert (Hm : exists m, mdt_merge text d t = Ret m). { destruct P as ([[-> ->]|[-> ->]] & _); apply Mg; assumption. }
    destruct Hm as (m & ->). cbn [bind]. destruct (IH rest (match rest with x :: _ => x | [] => b end)) as (o & ->); [cbn in *; lia|exact Fr|]. cbn. eauto.
  - destruct (IH (b :: rest) b) as (o & Ho); [cbn in *; lia|exact F'|]. cbn [mdt_loop] in Ho. rewrite Ho. cbn. eauto.
Qed.
Theorem C51_returns : forall rs text, Forall (fun r => stops r <= Z.of_nat (List.length text) /\ has_end r = false) rs ->
  exists out, mdt_refine rs text = Ret out.
Proof.
  intros rs text F. unfold mdt_refine. destruct (map res_copy rs) as [|a [|b l]] eqn:E; eauto. rewrite <- E.
  apply (mdt_returns text _ _ _ (le_n _)). apply Forall_forall. intros x Hx. apply in_map_iff in Hx as (r & <- & Hr). rewrite Forall_forall in F. destruct (F r Hr) as [F1 F2].
  change (starts (res_copy r)) with (starts r). change (stops (res_copy r)) with (stops r). change (has_end (res_copy r)) with (has_end r).
  pose proof (textLength_nonneg r). unfold stops, starts in *. repeat split; [lia|lia|assumption].
Qed.
Print Assumptions C51_returns.
(** three results, the first two of which are merged *)
Example C51_case : exists d t d2 m, found casual_date "today is the day, 5 pm is all; and tomorrow" = Ret [d; d2] /\ found time_expression "today is the day, 5 pm is all; and tomorrow" = Ret [t] /\
  nonempty_results [d; t; d2] /\ Forall (fun r => stops r <= Z.of_nat (List.length (bs "today is the day, 5 pm is all; and tomorrow")) /\ has_end r = false) [d; t; d2] /\
  mdt_refine [d; t; d2] (bs "today is the day, 5 pm is all; and tomorrow") = Ret [m; d2] /\ toDate m = Ret (bs "2024-Jan-30 17:00:00").
Proof.
  do 4 eexists. split; [vm_compute; reflexivity|]. split; [vm_compute; reflexivity|]. split; [repeat constructor; vm_compute; reflexivity|].
  split; [repeat constructor; vm_compute; discriminate|]. split; [vm_compute; reflexivity|]. vm_compute; reflexivity.
Qed.

(** ** Merging ranges *)
(** C52, false: a range written backwards becomes the empty range from its first date to its first date. *)
Theorem C52_order_refuted : exists a b m rest, found iso "2024-03-05 to 2024-03-01" = Ret [a; b] /\ linked (bs "2024-03-05 to 2024-03-01") a b /\
  mdr_refine [a; b] (bs "2024-03-05 to 2024-03-01") = Ret (m :: rest) /\ toDate m = Ret (bs "2024-Mar-05 00:00:00 - 2024-Mar-05 00:00:00").
Proof.
  do 4 eexists. split; [vm_compute; reflexivity|]. split.
  { split; [vm_compute; reflexivity|]. split; [vm_compute; reflexivity|]. exists (bs "to"). split; [vm_compute; tauto|]. exists (bs " "), (bs " "). vm_compute. reflexivity. }
  split; [vm_compute; reflexivity|]. vm_compute; reflexivity.
Qed.
Print Assumptions C52_order_refuted.

(** What holds: two linked results, whatever the text around them, become the range of their two moments when they are in order. *)
Theorem C52_order_partial : forall text a b ta tb out, solid text a -> solid text b -> Z.of_nat (List.length text) < 2 ^ 31 ->
  linked text a b -> denotes (r_start a) ta -> denotes (r_start b) tb -> real_moment ta -> real_moment tb ->
  sec_count ta <= sec_count tb -> mdr_refine [a; b] text = Ret out ->
  exists m, out = [m; m] /\ r_start m = r_start a /\ has_end m = true /\ r_endc m = r_start b /\
    (tag_is TExtractTZ m = false -> toDate m = Ret (bs (written ta ++ " - " ++ written tb)%string)).
Proof.
  intros text a b ta tb out Sa Sb L Lk Da Db Ra Rb O H. unfold mdr_refine in H. cbn [map mdr_loop] in H.
  change (has_end (res_copy a)) with (has_end a) in H. change (has_end (res_copy b)) with (has_end b) in H.
  destruct Lk as (Ha & Hb & Lk). rewrite Ha, Hb in H. cbn [negb andb] in H.
  destruct (mdr_able_val text (res_copy a) (res_copy b) Sa Sb L) as (x & Ax & Ex). rewrite Ax in H. cbn [bind] in H.
  replace x with true in H by (symmetry; apply Ex; exact Lk).
  apply bind_ret in H as (m & Hm & H). apply merged_ranged in Hm. pose proof (ranged_solid text (res_copy a) (res_copy b) m Sa Sb L Hm) as Nm. rewrite Nm in H. cbn [bind] in H. injection H as <-.
  exists m. split; [reflexivity|]. destruct Hm as (pa & pb & P1 & P2 & Hm). cbv zeta in Hm. cbn [r_start res_copy] in P1, P2.
  rewrite (pc_date_denotes _ _ Da Ra) in P1. rewrite (pc_date_denotes _ _ Db Rb) in P2. injection P1 as <-. injection P2 as <-.
  assert (Lt : ptime_of tb 0 <? ptime_of ta 0 = false).
  { unfold ptime_of, sec_count, dn_of, DAY, SEC in *. lia. }
  rewrite Lt in Hm. destruct Hm as (M1 & M2 & M3 & _). cbn [r_start res_copy] in M1, M3. split; [exact M1|]. split; [exact M2|]. split; [exact M3|].
  intros Tg. apply toDate_range; auto; [rewrite M1|rewrite M3]; assumption.
Qed.
Print Assumptions C52_order_partial.
Example C52_case : exists a b m, let tx := bs "2024-03-01 to 2024-03-05" in found iso "2024-03-01 to 2024-03-05" = Ret [a; b] /\ solid tx a /\ solid tx b /\ linked tx a b /\
  denotes (r_start a) (Moment (Cal 2024 3 1) 0 0 0) /\ denotes (r_start b) (Moment (Cal 2024 3 5) 0 0 0) /\
  mdr_refine [a; b] tx = Ret [m; m] /\ toDate m = Ret (bs "2024-Mar-01 00:00:00 - 2024-Mar-05 00:00:00").
Proof.
  do 3 eexists. cbv zeta. split; [vm_compute; reflexivity|]. split; [repeat split; vm_compute; first [discriminate|reflexivity]|]. split; [repeat split; vm_compute; first [discriminate|reflexivity]|]. split.
  { split; [vm_compute; reflexivity|]. split; [vm_compute; reflexivity|]. exists (bs "to"). split; [vm_compute; tauto|]. exists (bs " "), (bs " "). vm_compute. reflexivity. }
  split; [vm_compute; auto 10|]. split; [vm_compute; auto 10|]. split; [vm_compute; reflexivity|]. vm_compute; reflexivity.
Qed.

(** C53, false: of two dates that are not linked the first is printed twice and the second is lost. *)
Theorem C53_once_refuted : exists a b, found iso "2024-03-01, 2024-03-05" = Ret [a; b] /\ r_text a <> r_text b /\
  mdr_refine [a; b] (bs "2024-03-01, 2024-03-05") = Ret [a; a].
Proof.
  do 2 eexists. split; [vm_compute; reflexivity|]. split; [vm_compute; discriminate|]. vm_compute; reflexivity.
Qed.
Print Assumptions C53_once_refuted.
(** What holds, exactly, for every list of at least two results in the text: it is cut into single results and neighbouring linked
    pairs, except that the last result is lost unless it belongs to a pair; each piece is output once, in order; and the last
    output is repeated. *)
Theorem C53_once_partial : forall rs text out, (2 <= List.length rs)%nat -> Forall (solid text) rs -> Z.of_nat (List.length text) < 2 ^ 31 ->
  mdr_refine rs text = Ret out ->
  exists plan outs z lost, flat_map members plan ++ lost = map res_copy rs /\ (List.length lost <= 1)%nat /\
    Forall2 (mdr_made text) plan (outs ++ [z]) /\ maximal (linked text) plan /\ out = outs ++ [z; z].
Proof.
  intros rs text out Ln S L H. destruct rs as [|a [|b rs]]; [cbn in Ln; lia|cbn in Ln; lia|].
  assert (S' : Forall (solid text) (map res_copy (a :: b :: rs))).
  { apply Forall_forall. intros x Hx. apply in_map_iff in Hx as (r & <- & Hr). rewrite Forall_forall in S. exact (S r Hr). }
  unfold mdr_refine in H. cbn [map] in H, S'.
  assert (Sa : solid text (res_copy a)) by (inversion S'; assumption).
  assert (Hp : mdr_loop text (res_copy a) (res_copy a :: res_copy b :: map res_copy rs) = Ret out) by exact H.
  destruct (mdr_loop_plan text L _ _ (res_copy a) out (le_n _) S' (solid_nonempty text _ Sa) Hp) as (plan & outs & lost & P1 & P2 & P3 & P4 & P5).
  assert (Ne : outs <> []).
  { intros ->. inversion P3; subst. cbn in P1. rewrite P1 in P2. cbn in P2. lia. }
  destruct (exists_last Ne) as (os & z & ->). exists plan, os, z, lost. repeat (split; [assumption|]).
  rewrite P5, last_last, <- app_assoc. reflexivity.
Qed.
Print Assumptions C53_once_partial.
Theorem C53_short : forall text, mdr_refine [] text = Ret [] /\ forall r, mdr_refine [r] text = Ret [res_copy r].
Proof. split; reflexivity. Qed.

(** ** What stands between the results (C59) *)
(** C59, false for dates and times: the text between them is not examined.  Whatever the text is, a date and a time next to each
    other are merged. *)
Theorem C59_between_refuted : forall text d t, date_only d -> time_only t -> stops d <= Z.of_nat (List.length text) -> isEmpty t = false ->
  has_end d = false -> has_end t = false -> no_clock (r_start d) ->
  exists m, mdt_refine [d; t] text = Ret [m; res_copy t] /\ joined text (res_copy d) (res_copy t) m.
Proof.
  intros text d t Dd Tt S Ne Hd Ht Nc. unfold mdt_refine. cbn [map mdt_loop]. unfold mdt_pair. rewrite !mdt_able_val.
  change (stops (res_copy d)) with (stops d). replace (stops d <=? Z.of_nat (List.length text)) with true by lia.
  assert (E1 : isDateOnly (res_copy d) = true) by (apply isDateOnly_spec; exact Dd).
  assert (E2 : isTimeOnly (res_copy t) = true) by (apply isTimeOnly_spec; exact Tt). rewrite E1, E2. cbn [andb bind].
  assert (Mg : exists m, mdt_merge text (res_copy d) (res_copy t) = Ret m).
  { unfold mdt_merge, mdt_end. change (has_end (res_copy (res_copy d))) with (has_end d). change (has_end (res_copy (res_copy t))) with (has_end t).
    rewrite Hd, Ht. cbn [orb bind]. unfold substrZ. change (getIndex (res_copy (res_copy d))) with (starts d). change (getIndex (res_copy (res_copy t))) with (starts t).
    pose proof (textLength_nonneg d). unfold stops, starts in *.
    destruct (Z.of_nat (List.length text) <? Z.min (getIndex d) (getIndex t)) eqn:E; [lia|]. cbn [bind]. eauto. }
  destruct Mg as (m & Em). rewrite Em. cbn [bind]. rewrite isEmpty_copy, Ne. exists m. split; [reflexivity|].
  apply merged_joined; [exact Em|exact Nc|]. cbn [res_copy has_end r_hasend]. unfold has_end in Hd. rewrite Hd. discriminate.
Qed.
Print Assumptions C59_between_refuted.
Example C59_between_case : exists d t m, let tx := "today is unrelated to what follows in this sentence. 5 pm" in
  found casual_date tx = Ret [d] /\ found time_expression tx = Ret [t] /\ date_only d /\ time_only t /\
  mdt_refine [d; t] (bs tx) = Ret [m; t] /\ toDate m = Ret (bs "2024-Jan-30 17:00:00").
Proof.
  do 3 eexists. cbv zeta. split; [vm_compute; reflexivity|]. split; [vm_compute; reflexivity|]. split; [vm_compute; reflexivity|]. split; [vm_compute; auto|].
  split; [vm_compute; reflexivity|]. vm_compute; reflexivity.
Qed.
(** For ranges it holds: two results are merged iff neither is a range and one of the connecting words occurs between them. *)
Theorem C59_between_partial : forall text a b out, solid text a -> solid text b -> Z.of_nat (List.length text) < 2 ^ 31 ->
  mdr_refine [a; b] text = Ret out ->
  (linked text a b -> exists m, out = [m; m] /\ has_end m = true /\ r_start m = r_start a) /\
  (~ linked text a b -> out = [res_copy a; res_copy a]).
Proof.
  intros text a b out Sa Sb L H. unfold mdr_refine in H. cbn [map mdr_loop] in H.
  change (has_end (res_copy a)) with (has_end a) in H. change (has_end (res_copy b)) with (has_end b) in H.
  destruct (mdr_able_val text (res_copy a) (res_copy b) Sa Sb L) as (x & Ax & Ex).
  change (between text (res_copy a) (res_copy b)) with (between text a b) in Ex. unfold linked. rewrite Ax in H.
  pose proof (solid_nonempty _ _ Sa) as Na.
  assert (Hx : exists v : bool, (if negb (has_end a) && negb (has_end b) then Ret x else Ret false) = Ret v /\ (v = true <-> linked text a b)).
  { unfold linked. destruct (has_end a), (has_end b); cbn; (eexists; split; [reflexivity|]); intuition congruence. }
  destruct Hx as (v & Ev & Lk). rewrite Ev in H. cbn [bind] in H. fold (linked text a b). destruct v.
  - apply bind_ret in H as (m & Hm & H). apply merged_ranged in Hm. pose proof (ranged_solid text (res_copy a) (res_copy b) m Sa Sb L Hm) as Nm.
    rewrite Nm in H. injection H as <-. split; [intros _|intros N; exfalso; apply N, Lk; reflexivity].
    exists m. split; [reflexivity|]. destruct Hm as (pa & pb & _ & _ & Hm). cbv zeta in Hm. destruct Hm as (M1 & M2 & _). auto.
  - rewrite isEmpty_copy, Na in H. injection H as <-. split; [intros K; apply Lk in K; discriminate|reflexivity].
Qed.
Print Assumptions C59_between_partial.

(** ** The zone of a merged result (C60) *)
(** C60, false: the merged result carries the tag of the zone but not its offset. *)
Theorem C60_zone_merge_refuted : exists d t d' t' m, let tx := "today: 5 pm est" in
  found casual_date tx = Ret [d] /\ found time_expression tx = Ret [t] /\
  tz_refine [d; t] (bs tx) = Ret [d'; t'] /\ certain TzOffset (-300) (r_start t') /\ toDate t' = Ret (bs "2024-Jan-30 12:00:00") /\
  mdt_refine [d'; t'] (bs tx) = Ret [m; t'] /\ tag_is TExtractTZ m = true /\ unset TzOffset (r_start m) /\ toDate m = Ret (bs "2024-Jan-30 17:00:00").
Proof.
  do 5 eexists. cbv zeta. split; [vm_compute; reflexivity|]. split; [vm_compute; reflexivity|]. split; [vm_compute; reflexivity|]. split; [vm_compute; auto|].
  split; [vm_compute; reflexivity|]. split; [vm_compute; reflexivity|]. split; [vm_compute; reflexivity|]. split; [vm_compute; auto|]. vm_compute; reflexivity.
Qed.
Print Assumptions C60_zone_merge_refuted.
(** What holds: the offset of a merged result is the date's, and the zone tag is kept. *)
Theorem C60_zone_merge_partial : forall text d t m, joined text d t m ->
  getTimeZoneOffset (r_start m) = getTimeZoneOffset (r_start d) /\ is_certain TzOffset (r_start m) = is_certain TzOffset (r_start d) /\
  (r_tags d TExtractTZ = None -> tag_is TExtractTZ m = tag_is TExtractTZ t).
Proof.
  intros text d t m ((Jd & _) & _ & _ & _ & _ & _ & Tg). destruct (Jd TzOffset ltac:(cbn; tauto)) as [E1 E2].
  split; [exact E1|]. split; [exact E2|]. intros N. rewrite Tg, N. rewrite orb_false_r. reflexivity.
Qed.
Print Assumptions C60_zone_merge_partial.
