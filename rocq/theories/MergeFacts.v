(** * MergeFacts: the two merging refiners *)
From Verif Require Import Base Regex RegexParse Calendar Components Utils Execute Spec View ParserSpec RegexFacts Template ResultFacts ExecuteFacts ParserRe MatchFacts ParserFacts
  OverlapFacts Refiners.
From Coq Require Import ZifyBool ZifyNat.
Open Scope string_scope.
Open Scope list_scope.
Open Scope Z_scope.

(** ** vocabulary *)
Definition is_certain (f : field) (p : pc) : bool := fst (known p (field_name f)).
Definition clock_fields : list field := [Hour; Min; Sec].
Definition date_fields : list field := [Year; Month; MDay; WDay; TzOffset].

(** [q] has the date fields of [d] and the clock fields of [t] *)
Definition date_time (d t q : pc) : Prop :=
  (forall f, In f date_fields -> api_get f q = api_get f d /\ is_certain f q = is_certain f d) /\
  (forall f, In f clock_fields -> api_get f q = api_get f t) /\
  is_certain Hour q = is_certain Hour t /\ is_certain Min q = is_certain Hour t /\
  is_certain Sec q = is_certain Hour t && is_certain Sec t.

Definition no_clock (d : pc) : Prop := forall f, In f clock_fields -> is_certain f d = false.

Lemma hour_cert p : isCertain "hour" p = is_certain Hour p. Proof. reflexivity. Qed.
Lemma sec_cert p : isCertain "sec" p = is_certain Sec p. Proof. reflexivity. Qed.
Lemma mday_cert p : isCertain "mday" p = is_certain MDay p. Proof. reflexivity. Qed.

Lemma merge_component d t : no_clock d -> date_time d t (mergeDateTimeComponent d t).
Proof.
  intros N. pose proof (N Hour (or_introl eq_refl)) as Nh. pose proof (N Min (or_intror (or_introl eq_refl))) as Nm.
  pose proof (N Sec (or_intror (or_intror (or_introl eq_refl)))) as Ns. unfold is_certain in Nh, Nm, Ns. cbn [field_name] in Nh, Nm, Ns.
  unfold mergeDateTimeComponent. rewrite hour_cert, sec_cert. unfold is_certain. cbn [field_name].
  destruct (fst (known t "hour")) eqn:Ht; [destruct (fst (known t "sec")) eqn:St|];
    unfold implyComponent; cbn [String.eqb Ascii.eqb Bool.eqb]; unfold imply_field, setMinute, setHour, setSeconds, pc_set, cput; cbn [known implied fst snd String.eqb Ascii.eqb Bool.eqb];
    rewrite ?Nh, ?Nm, ?Ns; cbn [known implied fst snd String.eqb Ascii.eqb Bool.eqb];  rewrite ?Nh, ?Nm, ?Ns;  cbn [known implied fst snd String.eqb Ascii.eqb Bool.eqb]; rewrite ?Nh, ?Nm, ?Ns; cbn [known implied fst snd String.eqb Ascii.eqb Bool.eqb].
  all: split; [intros f If; repeat (destruct If as [<-|If]; [split; reflexivity|]); destruct If|].
  all: split; [intros f If; repeat (destruct If as [<-|If]; [try reflexivity; unfold api_get, getHour, getMinute, getSeconds, pc_get, is_certain; cbn [known implied fst snd String.eqb Ascii.eqb Bool.eqb field_name]; rewrite ?Nh, ?Nm, ?Ns, ?Ht, ?St; reflexivity|]); destruct If|].
  all: unfold is_certain; cbn [known implied fst snd String.eqb Ascii.eqb Bool.eqb field_name]; rewrite ?Nh, ?Nm, ?Ns, ?Ht, ?St; repeat split; reflexivity.
Qed.

Lemma copy_tags_rest src : forall dst, r_anchor (copy_tags src dst) = r_anchor dst /\ r_index (copy_tags src dst) = r_index dst /\ r_text (copy_tags src dst) = r_text dst /\
  r_start (copy_tags src dst) = r_start dst /\ r_endc (copy_tags src dst) = r_endc dst /\ r_hasend (copy_tags src dst) = r_hasend dst.
Proof.
  unfold copy_tags. induction ModList as [|m l IH]; intros dst; cbn [fold_left]; [repeat split|].
  destruct (IH (if tag_is m src then setTag m dst else dst)) as (A & B & C & D & E & F). rewrite A, B, C, D, E, F.
  destruct (tag_is m src); [|repeat split]. unfold setTag. destruct (r_tags dst m); repeat split.
Qed.
Lemma setTag_rest m r : r_anchor (setTag m r) = r_anchor r /\ r_index (setTag m r) = r_index r /\ r_text (setTag m r) = r_text r /\
  r_start (setTag m r) = r_start r /\ r_endc (setTag m r) = r_endc r /\ r_hasend (setTag m r) = r_hasend r.
Proof. unfold setTag. destruct (r_tags r m); repeat split. Qed.

Lemma substrZ_inv t pos n w : substrZ t pos n = Ret w -> pos <= Z.of_nat (List.length t) /\ w = firstn (Z.to_nat (Z.min n (Z.of_nat (List.length t)))) (skipn (Z.to_nat pos) t).
Proof. unfold substrZ. destruct (Z.of_nat (List.length t) <? pos) eqn:E; [discriminate|]. intros H. injection H as <-. split; [lia|reflexivity]. Qed.

(** moving an end to the next day of the month *)
Definition day_plus_one (p q : pc) : Prop :=
  get_mDay q = get_mDay p + 1 /\ is_certain MDay q = is_certain MDay p /\
  forall f, f <> MDay -> api_get f q = api_get f p /\ is_certain f q = is_certain f p.
Lemma bump_day p : day_plus_one p (if isCertain "mday" p then set_mDay (get_mDay p + 1) p else implyComponent "mday" (get_mDay p + 1) p).
Proof.
  rewrite mday_cert. unfold is_certain. cbn [field_name]. destruct (fst (known p "mday")) eqn:E.
  - split; [reflexivity|]. split; [symmetry; exact E|]. intros f N. destruct f; try congruence; split; reflexivity.
  - unfold implyComponent. cbn [String.eqb Ascii.eqb Bool.eqb]. unfold imply_field. rewrite E.
    split; [unfold get_mDay at 1, pc_get; cbn [known implied]; rewrite E; reflexivity|]. split; [reflexivity|].
    intros f N. destruct f; try congruence; split; reflexivity.
Qed.

(** what the merged result is: [d] the date, [t] the time, [m] the merged result *)
Definition joined (text : bytes) (d t m : result) : Prop :=
  date_time (r_start d) (r_start t) (r_start m) /\
  r_anchor m = r_anchor d /\
  (* it spans both *)
  getIndex m = u32 (Z.min (starts d) (starts t)) /\
  r_text m = firstn (Z.to_nat (Z.min (Z.max (stops d) (stops t) - Z.min (starts d) (starts t)) (Z.of_nat (List.length text)))) (skipn (Z.to_nat (Z.min (starts d) (starts t))) text) /\
  (* its end *)
  has_end m = has_end d || has_end t /\
  (has_end m = true ->
    exists e, date_time (if has_end d then r_endc d else r_start d) (if has_end t then r_endc t else r_start t) e /\
      (has_end d = true -> r_endc m = e) /\
      (has_end d = false -> exists te ts, pc_date e = Ret te /\ pc_date (r_start m) = Ret ts /\
         if te <? ts then day_plus_one e (r_endc m) else r_endc m = e)) /\
  (* the tags of the date, and where the date has none the tags of the time and the merge tag *)
  (forall x, tag_is x m = match r_tags d x with Some b => b | None => tag_is x t || mod_eqb x TMergeDateAndTime end).

Lemma copy_tags_fold src m : forall l dst,
  r_tags (fold_left (fun d x => if tag_is x src then setTag x d else d) l dst) m =
  match r_tags dst m with Some b => Some b | None => if existsb (mod_eqb m) l && tag_is m src then Some true else None end.
Proof.
  induction l as [|x l IH]; intros dst; cbn [fold_left existsb]; [destruct (r_tags dst m); reflexivity|].
  rewrite IH. destruct (tag_is x src) eqn:T.
  - rewrite setTag_tags. destruct (r_tags dst m); [reflexivity|]. destruct (mod_eqb m x) eqn:Q; cbn [orb andb]; [|reflexivity].
    apply mod_eqb_spec in Q as ->. rewrite T. reflexivity.
  - destruct (r_tags dst m); [reflexivity|]. destruct (mod_eqb m x) eqn:Q; cbn [orb]; [|reflexivity].
    apply mod_eqb_spec in Q as ->. rewrite T, !andb_false_r. reflexivity.
Qed.
Lemma copy_tags_tags src dst m : r_tags (copy_tags src dst) m =
  match r_tags dst m with Some b => Some b | None => if tag_is m src then Some true else None end.
Proof. unfold copy_tags. rewrite copy_tags_fold. destruct m; reflexivity. Qed.

Lemma merged_joined text d t m : mdt_merge text d t = Ret m -> no_clock (r_start d) -> (has_end d = true -> no_clock (r_endc d)) ->
  joined text d t m.
Proof.
  unfold mdt_merge. intros H N Ne. apply bind_ret in H as (d1 & H1 & H). apply bind_ret in H as (tx & H2 & H). injection H as <-.
  apply substrZ_inv in H2 as [_ ->].
  pose proof (setTag_rest TMergeDateAndTime) as ST. pose proof (copy_tags_rest (res_copy t)) as CT.
  assert (D1 : r_anchor d1 = r_anchor d /\ r_tags d1 = r_tags d /\ has_end d1 = has_end d || has_end t).
  { unfold mdt_end in H1. change (has_end (res_copy d)) with (has_end d) in H1. change (has_end (res_copy t)) with (has_end t) in H1.
    destruct (has_end d || has_end t) eqn:Hd; [|injection H1 as <-; repeat split; apply orb_false_iff in Hd as [Hd _]; exact Hd].
    apply bind_ret in H1 as (e & _ & H1). injection H1 as <-. repeat split. }
  destruct D1 as (Da & Dt & De).
  split; [|split; [|split; [|split; [|split; [|split]]]]].
  - cbn [r_start res_copy]. rewrite (proj1 (proj2 (proj2 (proj2 (ST _))))), (proj1 (proj2 (proj2 (proj2 (CT _))))).
    cbn [r_start setText setIndex with_start res_copy]. apply merge_component. exact N.
  - cbn [r_anchor res_copy]. rewrite (proj1 (ST _)), (proj1 (CT _)). exact Da.
  - unfold getIndex at 1. cbn [r_index res_copy]. rewrite (proj1 (proj2 (ST _))), (proj1 (proj2 (CT _))). reflexivity.
  - cbn [r_text res_copy]. rewrite (proj1 (proj2 (proj2 (ST _)))), (proj1 (proj2 (proj2 (CT _)))). reflexivity.
  - unfold has_end at 1. cbn [r_hasend res_copy]. rewrite (proj2 (proj2 (proj2 (proj2 (proj2 (ST _)))))), (proj2 (proj2 (proj2 (proj2 (proj2 (CT _)))))). exact De.
  - intros He. cbn [r_start r_endc res_copy].
    rewrite (proj1 (proj2 (proj2 (proj2 (ST _))))), (proj1 (proj2 (proj2 (proj2 (CT _))))).
    rewrite (proj1 (proj2 (proj2 (proj2 (proj2 (ST _)))))), (proj1 (proj2 (proj2 (proj2 (proj2 (CT _)))))).
    unfold has_end in He. cbn [r_hasend res_copy] in He. rewrite He.
    rewrite (proj2 (proj2 (proj2 (proj2 (proj2 (ST _)))))), (proj2 (proj2 (proj2 (proj2 (proj2 (CT _)))))) in He.
    cbn [r_hasend r_start r_endc setText setIndex with_start] in He |- *. unfold has_end in De. rewrite De in He. clear De Da Dt.
    unfold mdt_end in H1. change (has_end (res_copy d)) with (has_end d) in H1. change (has_end (res_copy t)) with (has_end t) in H1.
    unfold has_end in H1. rewrite He in H1. apply bind_ret in H1 as (e & H1 & H2). injection H2 as <-. cbn [r_endc makeEndDateValid with_end].
    exists (mergeDateTimeComponent (if has_end d then r_endc d else r_start d) (if has_end t then r_endc t else r_start t)).
    split; [apply merge_component; unfold has_end in *; destruct (r_hasend d); [apply Ne; reflexivity|exact N]|].
    unfold has_end in *. cbn [res_copy r_start r_endc r_hasend] in H1.
    assert (X : (if r_hasend t then if r_hasend t then r_endc t else pc_default else r_start t) = (if r_hasend t then r_endc t else r_start t)) by (destruct (r_hasend t); reflexivity).
    rewrite X in H1. clear X.
    destruct (r_hasend d); [injection H1 as <-; split; [reflexivity|discriminate]|].
    split; [discriminate|]. intros _.
    apply bind_ret in H1 as (te & P1 & H1). apply bind_ret in H1 as (ts & P2 & H1). injection H1 as <-.
    exists te, ts. split; [exact P1|]. split; [exact P2|]. destruct (te <? ts); [|reflexivity]. apply bump_day.
  - intros x. rewrite tag_is_tags. cbn [r_tags res_copy]. rewrite setTag_tags, copy_tags_tags. cbn [r_tags setText setIndex with_start]. rewrite Dt.
    destruct (r_tags d x) as [b|]; [reflexivity|]. rewrite (tag_is_tags x (res_copy t)). cbn [r_tags res_copy]. rewrite <- (tag_is_tags x t).
    destruct (tag_is x t); [reflexivity|]. destruct (mod_eqb x TMergeDateAndTime); reflexivity.
Qed.

(** ** which results are merged *)
Definition date_only (r : result) : Prop := is_certain Hour (r_start r) = false.
Definition time_only (r : result) : Prop := is_certain Month (r_start r) = false /\ is_certain MDay (r_start r) = false.
(** one is a date, the other a time *)
Definition complementary (a b : result) : Prop := (date_only a /\ time_only b) \/ (date_only b /\ time_only a).

Lemma isDateOnly_spec r : isDateOnly r = true <-> date_only r.
Proof. unfold isDateOnly, date_only. rewrite hour_cert. destruct (is_certain Hour (r_start r)); cbn; split; congruence. Qed.
Lemma isTimeOnly_spec r : isTimeOnly r = true <-> time_only r.
Proof.
  unfold isTimeOnly, time_only. change (isCertain "month" (r_start r)) with (is_certain Month (r_start r)).
  rewrite mday_cert. destruct (is_certain Month (r_start r)), (is_certain MDay (r_start r)); cbn; split; try tauto; intros H; try discriminate; destruct H; discriminate.
Qed.

Definition mdt_re : re := Eval vm_compute in pat "(T|at|on|of|,|-)?".
Lemma mdt_compile : compile mdt_pattern = Some mdt_re.
Proof. vm_compute. reflexivity. Qed.
Lemma mdt_always t : search true mdt_re t <> None.
Proof.
  intros E. destruct (search_complete true mdt_re t [] t eq_refl) as (m & S & _); [|congruence].
  eexists. left. reflexivity.
Qed.
(** the text between the two results is not looked at: the pattern matches the empty string *)
Lemma mdt_able_val text a b : mdt_able text a b = if stops a <=? Z.of_nat (List.length text) then Ret true else Throw OutOfRange.
Proof.
  unfold mdt_able, substrZ, with_re. rewrite mdt_compile. fold (stops a). unfold stops, res_stop.
  destruct (Z.of_nat (List.length text) <? getIndex a + textLength a) eqn:E;
    destruct (getIndex a + textLength a <=? Z.of_nat (List.length text)) eqn:E'; try lia; cbn [bind]; [reflexivity|].
  match goal with |- context [search true mdt_re ?x] => pose proof (mdt_always x) as N; destruct (search true mdt_re x); [reflexivity|congruence] end.
Qed.

Inductive item := One (r : result) | Two (a b : result).
Definition members (i : item) : list result := match i with One r => [r] | Two a b => [a; b] end.

Definition mdt_made (text : bytes) (i : item) (r : result) : Prop :=
  match i with
  | One x => r = x
  | Two a b => (date_only a /\ time_only b /\ mdt_merge text a b = Ret r) \/ (date_only b /\ time_only a /\ mdt_merge text b a = Ret r)
  end.
Fixpoint repeated (plan : list item) : list result :=
  match plan with [] => [] | [Two _ b] => [b] | _ :: p => repeated p end.
(** a result left alone is not complementary to its successor *)
Fixpoint maximal (able : result -> result -> Prop) (plan : list item) : Prop :=
  match plan with
  | One a :: ((i :: _) as p) => (forall b l, members i = b :: l -> ~ able a b) /\ maximal able p
  | _ :: p => maximal able p
  | [] => True
  end.

Lemma mdt_pair_inv text a b x : mdt_pair text a b = Ret x ->
  match x with
  | Some (d, t) => ((d = a /\ t = b) \/ (d = b /\ t = a)) /\ date_only d /\ time_only t
  | None => ~ complementary a b
  end.
Proof.
  unfold mdt_pair. rewrite !mdt_able_val. unfold complementary.
  pose proof (isDateOnly_spec a) as Da. pose proof (isDateOnly_spec b) as Db. pose proof (isTimeOnly_spec a) as Ta. pose proof (isTimeOnly_spec b) as Tb.
  destruct (isDateOnly a), (isTimeOnly b), (isDateOnly b), (isTimeOnly a); cbn [andb bind];
    destruct (stops a <=? Z.of_nat (List.length text)); cbn [bind]; intros H; try discriminate; injection H as <-; intuition congruence.
Qed.

Lemma repeated_cons i p : p <> [] -> repeated (i :: p) = repeated p.
Proof. destruct p; [congruence|]. destruct i; reflexivity. Qed.

Lemma mdt_loop_plan text : forall n l curr out, (List.length l <= n)%nat -> l <> [] -> (forall x, l = [x] -> curr = x) ->
  nonempty_results l -> mdt_loop text curr l = Ret out ->
  exists plan outs, flat_map members plan = l /\ Forall2 (mdt_made text) plan outs /\ maximal complementary plan /\ out = outs ++ repeated plan.
Proof.
  induction n as [|n IH]; intros l curr out Ln Nl Hc Ne H; [destruct l; [congruence|cbn in Ln; lia]|].
  destruct l as [|a [|b rest]]; [congruence| |].
  - specialize (Hc a eq_refl). subst curr. inversion Ne as [|? ? Na _]; subst. cbn [mdt_loop] in H. rewrite Na in H. injection H as <-.
    exists [One a], [a]. repeat split; repeat constructor.
  - inversion Ne as [|? ? Na Ne']; subst. inversion Ne' as [|? ? Nb Nr]; subst.
    cbn [mdt_loop] in H. apply bind_ret in H as (x & P & H). pose proof (mdt_pair_inv _ _ _ _ P) as PI. clear P. destruct x as [[d t]|].
    + apply bind_ret in H as (m & Hm & H). apply bind_ret in H as (o & Ho & H). injection H as <-.
      assert (Made : mdt_made text (Two a b) m).
      { destruct PI as ([[-> ->]|[-> ->]] & Dd & Tt); [left|right]; auto. }
      destruct rest as [|y rest].
      * cbn [mdt_loop] in Ho. rewrite Nb in Ho. injection Ho as <-. exists [Two a b], [m]. split; [reflexivity|]. split; [constructor; [exact Made|constructor]|]. split; [exact I|reflexivity].
      * destruct (IH (y :: rest) y o) as (plan & outs & F & M & Mx & ->); [cbn in *; lia|discriminate|intros z E; congruence|exact Nr|exact Ho|].
        exists (Two a b :: plan), (m :: outs). split; [cbn; rewrite F; reflexivity|]. split; [constructor; assumption|]. split; [exact Mx|].
        rewrite repeated_cons; [reflexivity|]. intros ->. discriminate.
    + apply bind_ret in H as (o & Ho & H). injection H as <-.
      destruct (IH (b :: rest) b o) as (plan & outs & F & M & Mx & ->); [cbn in *; lia|discriminate|intros z E; congruence|exact Ne'|exact Ho|].
      assert (Np : plan <> []) by (intros ->; discriminate).
      exists (One a :: plan), (a :: outs). split; [cbn; rewrite F; reflexivity|]. split; [constructor; [reflexivity|assumption]|]. split.
      * destruct plan as [|i p]; [congruence|]. split; [|exact Mx]. intros b' l' E. cbn [flat_map] in F. rewrite E in F. cbn in F. injection F as -> _. exact PI.
      * rewrite repeated_cons by exact Np. reflexivity.
Qed.

(** ** the range refiner *)
Definition mdr_re : re := Eval vm_compute in pat "\s*(and|to|through|\-)\s*".
Lemma mdr_compile : compile mdr_pattern = Some mdr_re.
Proof. vm_compute. reflexivity. Qed.
Definition connectors : list bytes := map bs ["and"; "to"; "through"; "-"].
(** the slice of the text from the end of [a] to the start of [b] (to the end of the text when [b] starts earlier) *)
Definition between (text : bytes) (a b : result) : bytes :=
  let n := if stops a <=? starts b then Z.to_nat (starts b - stops a) else List.length text in
  firstn n (skipn (Z.to_nat (stops a)) text).
(** they are linked: neither is a range and one of the connecting words occurs between them *)
Definition linked (text : bytes) (a b : result) : Prop :=
  has_end a = false /\ has_end b = false /\ exists w, In w connectors /\ occurs w (between text a b).

Definition mdr_conn : re := Eval vm_compute in pat "and|to|through|\-".
Lemma char_set d c : set_ok false false [CChar d] c = true -> c = d.
Proof. unfold set_ok. cbn. rewrite orb_false_r. intros H. apply Ascii.eqb_eq. destruct (Ascii.eqb c d); [reflexivity|discriminate]. Qed.
Lemma conn_inv w : lang false mdr_conn w -> In w connectors.
Proof.
  intros [L|[L|[L|L]]].
  - left. destruct L as (a & b & -> & (c & -> & H1) & a' & b' & -> & (c' & -> & H2) & c'' & -> & H3).
    apply char_set in H1. apply char_set in H2. apply char_set in H3. subst. reflexivity.
  - right; left. destruct L as (a & b & -> & (c & -> & H1) & c' & -> & H2).
    apply char_set in H1. apply char_set in H2. subst. reflexivity.
  - right; right; left.
    destruct L as (a & b & -> & (c & -> & H1) & a2 & b2 & -> & (c2 & -> & H2) & a3 & b3 & -> & (c3 & -> & H3) & a4 & b4 & -> & (c4 & -> & H4) & a5 & b5 & -> & (c5 & -> & H5) & a6 & b6 & -> & (c6 & -> & H6) & c7 & -> & H7).
    apply char_set in H1. apply char_set in H2. apply char_set in H3. apply char_set in H4. apply char_set in H5. apply char_set in H6. apply char_set in H7. subst. reflexivity.
  - right; right; right; left. destruct L as (c & -> & H1). apply char_set in H1. subst. reflexivity.
Qed.
Lemma conn_intro w : In w connectors -> lang false mdr_conn w.
Proof.
  intros I. repeat destruct I as [<-|I]; try contradiction.
  - left. exists (bs "a"), (bs "nd"). split; [reflexivity|]. split; [eexists; split; reflexivity|]. exists (bs "n"), (bs "d"). split; [reflexivity|]. split; eexists; split; reflexivity.
  - right; left. exists (bs "t"), (bs "o"). split; [reflexivity|]. split; eexists; split; reflexivity.
  - right; right; left. exists (bs "t"), (bs "hrough"). split; [reflexivity|]. split; [eexists; split; reflexivity|].
    exists (bs "h"), (bs "rough"). split; [reflexivity|]. split; [eexists; split; reflexivity|].
    exists (bs "r"), (bs "ough"). split; [reflexivity|]. split; [eexists; split; reflexivity|].
    exists (bs "o"), (bs "ugh"). split; [reflexivity|]. split; [eexists; split; reflexivity|].
    exists (bs "u"), (bs "gh"). split; [reflexivity|]. split; [eexists; split; reflexivity|].
    exists (bs "g"), (bs "h"). split; [reflexivity|]. split; eexists; split; reflexivity.
  - right; right; right. eexists; split; reflexivity.
Qed.
Lemma mdr_search t : (exists m, search false mdr_re t = Some m) <-> exists w, In w connectors /\ occurs w t.
Proof.
  split.
  - intros [m S]. shape S. unfold mdr_re in M. fold SPs in M. change (RCat SPs (RCat (RGrp 1 mdr_conn) SPs)) with mdr_re in M. unfold mdr_re in M.
    destruct M as (s1 & M1 & s2 & M2 & M3).
    apply mt_plain_inv in M1 as (w1 & t1 & E1 & L1 & ->); [|reflexivity].
    apply (mt_grp_inv false 1 mdr_conn) in M2 as (w2 & t2 & E2 & L2 & ->); [|reflexivity].
    exists w2. split; [apply conn_inv; exact L2|]. subst. unfold same in Es. rewrite <- Es. exists (pre ++ w1), t2. rewrite <- app_assoc. reflexivity.
  - intros (w & I & a & b & ->). destruct (search_complete false mdr_re (a ++ w ++ b) a (w ++ b) eq_refl) as (m & S & _); [|eauto].
    eexists. eexists. split; [apply star_nil|]. eexists. split; [apply (mt_grp false 1 mdr_conn); [reflexivity|apply conn_intro; exact I]|]. apply star_nil.
Qed.

(** the result lies in the text and is not empty *)
Definition solid (text : bytes) (r : result) : Prop := 0 <= starts r /\ 0 < textLength r /\ stops r <= Z.of_nat (List.length text).

Lemma mdr_able_val text a b : solid text a -> solid text b -> Z.of_nat (List.length text) < 2 ^ 31 ->
  exists x, mdr_able text a b = Ret x /\ (x = true <-> exists w, In w connectors /\ occurs w (between text a b)).
Proof.
  intros (A1 & A2 & A3) (B1 & B2 & B3) L. unfold mdr_able, substrZ, with_re. rewrite mdr_compile.
  unfold stops, starts in *. unfold between, stops, starts, res_stop in *.
  assert (U : u32 (getIndex a + textLength a) = getIndex a + textLength a) by (unfold u32; rewrite Z.mod_small; lia). rewrite U.
  destruct (Z.of_nat (List.length text) <? getIndex a + textLength a) eqn:E; [lia|]. cbn [bind].
  assert (F : firstn (Z.to_nat (Z.min (u32 (getIndex b - (getIndex a + textLength a))) (Z.of_nat (List.length text)))) (skipn (Z.to_nat (getIndex a + textLength a)) text) =
              firstn (if getIndex a + textLength a <=? getIndex b then Z.to_nat (getIndex b - (getIndex a + textLength a)) else List.length text) (skipn (Z.to_nat (getIndex a + textLength a)) text)).
  { destruct (getIndex a + textLength a <=? getIndex b) eqn:O.
    - f_equal. unfold u32. rewrite Z.mod_small by lia. lia.
    - f_equal. unfold u32. replace ((getIndex b - (getIndex a + textLength a)) mod 2 ^ 32) with (getIndex b - (getIndex a + textLength a) + 2 ^ 32); [lia|].
      rewrite <- (Z.mod_add _ 1) by lia. rewrite Z.mul_1_l. symmetry. apply Z.mod_small. lia. }
  rewrite F. eexists. split; [reflexivity|]. rewrite <- mdr_search. destruct (search false mdr_re _) as [m|]; split; intros X; try discriminate; eauto.
  destruct X; discriminate.
Qed.

(** what a merged range is *)
Definition ranged (text : bytes) (a b m : result) : Prop :=
  exists ta tb, pc_date (r_start a) = Ret ta /\ pc_date (r_start b) = Ret tb /\
  let b' := if tb <? ta then a else b in
  r_start m = r_start a /\ has_end m = true /\ r_endc m = r_start b' /\ r_anchor m = r_anchor a /\
  getIndex m = u32 (Z.min (starts a) (starts b')) /\
  r_text m = firstn (Z.to_nat (Z.min (Z.max (stops a) (stops b') - Z.min (starts a) (starts b') + 1) (Z.of_nat (List.length text)))) (skipn (Z.to_nat (Z.min (starts a) (starts b'))) text) /\
  (forall x, tag_is x m = match r_tags a x with Some v => v | None => tag_is x b' || mod_eqb x TMergeDateRange end).

Lemma merged_ranged text a b m : mdr_merge text a b = Ret m -> ranged text a b m.
Proof.
  unfold mdr_merge. cbn [r_start res_copy]. intros H. apply bind_ret in H as (ta & P1 & H). apply bind_ret in H as (tb & P2 & H).
  exists ta, tb. split; [exact P1|]. split; [exact P2|]. cbv zeta.
  assert (G : forall b', (tx <- substrZ text (Z.min (getIndex a) (getIndex b')) (Z.max (stops a) (stops b') - Z.min (getIndex a) (getIndex b') + 1) ;;
      Ret (res_copy (setTag TMergeDateRange (copy_tags (res_copy b') (setText tx (setIndex (Z.min (getIndex a) (getIndex b')) (makeEndDateValid (with_end (r_start b') (res_copy a))))))))) = Ret m ->
      r_start m = r_start a /\ has_end m = true /\ r_endc m = r_start b' /\ r_anchor m = r_anchor a /\
      getIndex m = u32 (Z.min (starts a) (starts b')) /\
      r_text m = firstn (Z.to_nat (Z.min (Z.max (stops a) (stops b') - Z.min (starts a) (starts b') + 1) (Z.of_nat (List.length text)))) (skipn (Z.to_nat (Z.min (starts a) (starts b'))) text) /\
      (forall x, tag_is x m = match r_tags a x with Some v => v | None => tag_is x b' || mod_eqb x TMergeDateRange end)).
  { clear. intros b H. apply bind_ret in H as (tx & H2 & H). apply substrZ_inv in H2 as [_ ->]. injection H as <-.
    pose proof (setTag_rest TMergeDateRange) as ST. pose proof (copy_tags_rest (res_copy b)) as CT.
    unfold has_end, starts, stops, getIndex. cbn [r_start r_hasend r_endc r_anchor r_index r_text res_copy].
    rewrite (proj1 (ST _)), (proj1 (CT _)), (proj1 (proj2 (ST _))), (proj1 (proj2 (CT _))), (proj1 (proj2 (proj2 (ST _)))), (proj1 (proj2 (proj2 (CT _)))).
    rewrite (proj1 (proj2 (proj2 (proj2 (ST _))))), (proj1 (proj2 (proj2 (proj2 (CT _))))).
    rewrite (proj1 (proj2 (proj2 (proj2 (proj2 (ST _)))))), (proj1 (proj2 (proj2 (proj2 (proj2 (CT _)))))).
    rewrite (proj2 (proj2 (proj2 (proj2 (proj2 (ST _)))))), (proj2 (proj2 (proj2 (proj2 (proj2 (CT _)))))).
    cbn [r_start r_hasend r_endc r_anchor r_index r_text setText setIndex makeEndDateValid with_end res_copy].
    repeat (split; [reflexivity|]). intros x. rewrite tag_is_tags. cbn [r_tags res_copy]. rewrite setTag_tags, copy_tags_tags.
    cbn [r_tags setText setIndex makeEndDateValid with_end res_copy].
    destruct (r_tags a x) as [v|]; [reflexivity|]. rewrite (tag_is_tags x (res_copy b)). cbn [r_tags res_copy]. rewrite <- (tag_is_tags x b).
    destruct (tag_is x b); [reflexivity|]. destruct (mod_eqb x TMergeDateRange); reflexivity. }
  destruct (tb <? ta); apply G; exact H.
Qed.
Lemma ranged_solid text a b m : solid text a -> solid text b -> Z.of_nat (List.length text) < 2 ^ 31 -> ranged text a b m -> isEmpty m = false.
Proof.
  intros Sa Sb L (ta & tb & _ & _ & H). cbv zeta in H. destruct H as (_ & _ & _ & _ & _ & T & _).
  unfold isEmpty. rewrite T. set (b' := if tb <? ta then a else b) in *.
  assert (Sb' : solid text b') by (unfold b'; destruct (tb <? ta); assumption).
  destruct Sa as (A1 & A2 & A3), Sb' as (B1 & B2 & B3). unfold stops, starts in *.
  destruct (skipn (Z.to_nat (Z.min (getIndex a) (getIndex b'))) text) as [|c q] eqn:E.
  - pose proof (f_equal (@List.length _) E) as F. rewrite skipn_length in F. cbn in F. lia.
  - destruct (Z.to_nat (Z.min (Z.max (getIndex a + textLength a) (getIndex b' + textLength b') - Z.min (getIndex a) (getIndex b') + 1) (Z.of_nat (Datatypes.length text)))) eqn:Q; [lia|].
    cbn. apply andb_false_r.
Qed.

Definition mdr_made (text : bytes) (i : item) (r : result) : Prop :=
  match i with One x => r = x | Two a b => linked text a b /\ ranged text a b r end.
Lemma last_default {A} (x : A) l : forall d, last l x = last (x :: l) d.
Proof.
  destruct l as [|y l]; [reflexivity|]. intros d. change (last (x :: y :: l) d) with (last (y :: l) d). revert y.
  induction l as [|z l IH]; intros y; [reflexivity|]. apply IH.
Qed.

Lemma solid_nonempty text r : solid text r -> isEmpty r = false.
Proof. intros (_ & H & _). unfold isEmpty, textLength in *. destruct (r_text r); [cbn in H; lia|]. apply andb_false_r. Qed.

Lemma mdr_loop_plan text : Z.of_nat (List.length text) < 2 ^ 31 -> forall n l prev out, (List.length l <= n)%nat -> 
  Forall (solid text) l -> isEmpty prev = false -> mdr_loop text prev l = Ret out ->
  exists plan outs lost, flat_map members plan ++ lost = l /\ (List.length lost <= 1)%nat /\
    Forall2 (mdr_made text) plan outs /\ maximal (linked text) plan /\ out = outs ++ [last outs prev].
Proof.
  intros Lt. induction n as [|n IH]; intros l prev out Ln Sl Np H.
  - destruct l; [|cbn in Ln; lia]. cbn in H. rewrite Np in H. injection H as <-. exists [], [], []. repeat split; auto.
  - destruct l as [|a [|b rest]].
    + cbn in H. rewrite Np in H. injection H as <-. exists [], [], []. repeat split; auto.
    + cbn in H. rewrite Np in H. injection H as <-. exists [], [], [a]. repeat split; auto.
    + inversion Sl as [|? ? Sa Sl']; subst. inversion Sl' as [|? ? Sb Sr]; subst. cbn [mdr_loop] in H.
      destruct (mdr_able_val text a b Sa Sb Lt) as (x & Ax & Ex).
      assert (Hx : exists v : bool, (if negb (has_end a) && negb (has_end b) then mdr_able text a b else Ret false) = Ret v /\ (v = true <-> linked text a b)).
      { rewrite Ax. unfold linked. destruct (has_end a), (has_end b); cbn; (eexists; split; [reflexivity|]); intuition congruence. }
      destruct Hx as (v & Ev & Lk). rewrite Ev in H. cbn [bind] in H. destruct v.
      * apply bind_ret in H as (m & Hm & H). apply bind_ret in H as (o & Ho & H). injection H as <-.
        pose proof (merged_ranged _ _ _ _ Hm) as Rm. pose proof (ranged_solid _ _ _ _ Sa Sb Lt Rm) as Nm.
        destruct (IH rest m o) as (plan & outs & lost & F & Ll & M & Mx & ->); [cbn in *; lia|exact Sr|exact Nm|exact Ho|].
        exists (Two a b :: plan), (m :: outs), lost. split; [cbn; rewrite F; reflexivity|]. split; [exact Ll|].
        split; [constructor; [split; [apply Lk; reflexivity|exact Rm]|exact M]|]. split; [exact Mx|].
        rewrite (last_default m outs prev). reflexivity.
      * apply bind_ret in H as (o & Ho & H). injection H as <-.
        destruct (IH (b :: rest) a o) as (plan & outs & lost & F & Ll & M & Mx & ->); [cbn in *; lia|exact Sl'|apply (solid_nonempty text); exact Sa|exact Ho|].
        exists (One a :: plan), (a :: outs), lost. split; [cbn; rewrite F; reflexivity|]. split; [exact Ll|].
        split; [constructor; [reflexivity|exact M]|]. split.
        -- destruct plan as [|i p]; [exact I|]. split; [|exact Mx]. intros b' l' E. cbn [flat_map] in F. rewrite E in F. cbn in F. injection F as -> _.
           intros X. apply Lk in X. discriminate.
        -- rewrite (last_default a outs prev). reflexivity.
Qed.
