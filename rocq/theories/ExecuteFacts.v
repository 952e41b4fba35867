(** * ExecuteFacts: the search loop of Parser::execute *)
From Verif Require Import Base Regex RegexParse Calendar Components Utils Execute RegexFacts ResultFacts.
From Coq Require Import ZifyBool ZifyNat ZifyN.

(** The iterators invalidated on parsers.cpp:51 either make the run undefined or still subtract to the old length. *)
Definition sane (e : env) : Prop := forall n, ev_stale e n = None \/ ev_stale e n = Some n.

Lemma benign_sane e : benign e -> sane e.
Proof. intros (_ & _ & H) n. right. apply H. Qed.
Lemma strict_sane : sane strict_env.
Proof. intros n. left. reflexivity. Qed.
Lemma benign_env_benign c : benign (benign_env c).
Proof. repeat split; cbn; eauto. Qed.

(** What a successful search says about the text. *)
Lemma search_split ic r t m : search ic r t = Some m ->
  exists pre post, t = pre ++ m_str m ++ post /\ m_pos m = List.length pre /\ lang ic r (m_str m) /\
                   Forall (cap_ok ic (groups r)) (m_caps m) /\
                   mt ic r (mkst (lastc pre None) (m_str m ++ post) [])
                           (mkst (lastc (m_str m) (lastc pre None)) post (m_caps m)).
Proof.
  intros H. destruct (search_from_sound _ _ _ _ _ _ H) as (pre & post & caps & E & P & C & M & _ & L & F & _).
  exists pre, post. subst caps. repeat split; auto.
Qed.

Lemma search_bounds r t m : (1 <= min_len r)%nat -> search true r t = Some m ->
  (m_pos m + List.length (m_str m) <= List.length t)%nat /\ (1 <= List.length (m_str m))%nat.
Proof.
  intros Hr H. destruct (search_split _ _ _ _ H) as (pre & post & E & P & L & _).
  pose proof (min_len_ok _ _ _ L). rewrite P, E, !app_length. lia.
Qed.

Lemma substr_from_ok t n : (n <= List.length t)%nat -> substr_from t n = Ret (skipn n t).
Proof. intros H. unfold substr_from. replace (Nat.ltb (List.length t) n) with false by (symmetry; apply Nat.ltb_ge; lia). reflexivity. Qed.

(** The successive matches of a text, from offset [off] on: the leftmost match in the rest, then whatever follows it.
    [scan ... off g ms g'] lists the (start offset, match, extracted result). *)
Inductive scan (e : env) (p : parser) (r : re) (text : bytes) (ref : ptime)
  : nat -> gwords -> list (nat * mres * result) -> gwords -> Prop :=
| scan_done off g : search true r (skipn off text) = None -> scan e p r text ref off g [] g
| scan_step off g m g1 res l g' :
    search true r (skipn off text) = Some m ->
    p_extract p e g (skipn off text) m ref (Z.of_nat (off + m_pos m)) = (g1, Ret res) ->
    scan e p r text ref (off + m_pos m + List.length (m_str m)) g1 l g' ->
    scan e p r text ref off g ((off + m_pos m, m, res)%nat :: l) g'.

(** what execute() keeps of them *)
Definition kept (l : list (nat * mres * result)) : list result :=
  map res_copy (filter hasPossibleDates (map snd l)).

Lemma exec_loop_scan e p r text ref : sane e -> (1 <= min_len r)%nat ->
  forall fuel off g acc g' rs, (off <= List.length text)%nat ->
  exec_loop fuel e p r g text (skipn off text) ref acc = (g', Ret rs) ->
  exists l, scan e p r text ref off g l g' /\ rs = rev acc ++ kept l.
Proof.
  intros He Hr. induction fuel as [|fuel IH]; intros off g acc g' rs Hoff; cbn [exec_loop]; [discriminate|].
  destruct (search true r (skipn off text)) as [m|] eqn:S.
  2:{ intros H; injection H as <- <-. exists []. split; [constructor; exact S|]. cbn. symmetry. apply app_nil_r. }
  destruct (search_bounds _ _ _ Hr S) as [B1 B2]. rewrite skipn_length in B1.
  replace (m_pos m + List.length text - List.length (skipn off text))%nat with (off + m_pos m)%nat
    by (rewrite skipn_length; lia).
  destruct (p_extract p e g (skipn off text) m ref (Z.of_nat (off + m_pos m))) as [g1 o] eqn:X.
  destruct o as [res|x|k| |]; try discriminate.
  assert (N : forall P, exec_loop fuel e p r g1 text (skipn (off + m_pos m + List.length (m_str m)) text) ref
                 (if hasPossibleDates res then res_copy res :: acc else acc) = (g', Ret rs) ->
             (exists l, scan e p r text ref off g l g' /\ rs = rev acc ++ kept l) \/ P).
  { intros P H. left. apply IH in H as (l & Sc & E); [|lia].
    exists ((off + m_pos m, m, res)%nat :: l). split; [econstructor; eauto|].
    rewrite E. unfold kept. cbn [map snd filter]. destruct (hasPossibleDates res); cbn [rev map]; [|reflexivity].
    rewrite <- app_assoc. reflexivity. }
  destruct (hasPossibleDates res); cbn [bind].
  - rewrite substr_from_ok by lia. intros H. destruct (N False H) as [R|[]]. exact R.
  - rewrite substr_from_ok by lia. cbn [bind]. unfold read_stale.
    destruct (He (List.length (m_str m))) as [E|E]; rewrite E; cbn [bind]; [discriminate|].
    rewrite substr_from_ok by lia. intros H. destruct (N False H) as [R|[]]. exact R.
Qed.

(** Conversely, with well-behaved iterators every scan is what execute() returns. *)
Lemma scan_exec_loop e p r text ref : (forall n, ev_stale e n = Some n) -> (1 <= min_len r)%nat ->
  forall off g l g', scan e p r text ref off g l g' -> (off <= List.length text)%nat ->
  forall fuel acc, (List.length text - off < fuel)%nat ->
  exec_loop fuel e p r g text (skipn off text) ref acc = (g', Ret (rev acc ++ kept l)).
Proof.
  intros He Hr off g l g' Sc. induction Sc as [off g S|off g m g1 res l g' S X Sc IH]; intros Hoff fuel acc Hf;
    (destruct fuel as [|fuel]; [lia|]); cbn [exec_loop]; rewrite S.
  - cbn. rewrite app_nil_r. reflexivity.
  - destruct (search_bounds _ _ _ Hr S) as [B1 B2]. rewrite skipn_length in B1.
    replace (m_pos m + List.length text - List.length (skipn off text))%nat with (off + m_pos m)%nat
      by (rewrite skipn_length; lia).
    rewrite X. unfold kept; cbn [map snd filter].
    destruct (hasPossibleDates res) eqn:Hp; cbn [bind].
    + rewrite substr_from_ok by lia. rewrite IH by lia. cbn [rev map]. rewrite <- app_assoc. reflexivity.
    + rewrite substr_from_ok by lia. cbn [bind]. unfold read_stale. rewrite He. cbn [bind].
      rewrite substr_from_ok by lia. rewrite IH by lia. reflexivity.
Qed.

(** The loop bound is never the reason to stop. *)
Lemma exec_loop_fuel e p r text ref : sane e -> (1 <= min_len r)%nat ->
  (forall g tx m idx g', p_extract p e g tx m ref idx <> (g', OutOfFuel)) ->
  forall fuel off g acc g', (off <= List.length text)%nat -> (List.length text - off < fuel)%nat ->
  exec_loop fuel e p r g text (skipn off text) ref acc <> (g', OutOfFuel).
Proof.
  intros He Hr Hx. induction fuel as [|fuel IH]; intros off g acc g' Hoff Hf; [lia|]. cbn [exec_loop].
  destruct (search true r (skipn off text)) as [m|] eqn:S; [|discriminate].
  destruct (search_bounds _ _ _ Hr S) as [B1 B2]. rewrite skipn_length in B1.
  replace (m_pos m + List.length text - List.length (skipn off text))%nat with (off + m_pos m)%nat
    by (rewrite skipn_length; lia).
  destruct (p_extract p e g (skipn off text) m ref (Z.of_nat (off + m_pos m))) as [g1 o] eqn:X.
  destruct o as [res|x|k| |]; try discriminate.
  2:{ exfalso. exact (Hx _ _ _ _ _ X). }
  destruct (hasPossibleDates res); cbn [bind].
  - rewrite substr_from_ok by lia. apply IH; lia.
  - rewrite substr_from_ok by lia. cbn [bind]. unfold read_stale.
    destruct (He (List.length (m_str m))) as [E|E]; rewrite E; cbn [bind]; [discriminate|].
    rewrite substr_from_ok by lia. apply IH; lia.
Qed.

(** ** execute() *)
Definition nonempty_pattern (p : parser) : Prop := forall r, compile (p_pattern p) = Some r -> (1 <= min_len r)%nat.

Theorem execute_scan e p g text ref rs : sane e -> nonempty_pattern p ->
  x_res (execute e p g text ref) = Ret rs ->
  match compile (p_pattern p) with
  | None => rs = []
  | Some r => exists l, scan e p r (to_lower text) ref 0 g l (x_words (execute e p g text ref)) /\ rs = kept l
  end.
Proof.
  intros He Hp. unfold execute. specialize (Hp). destruct (compile (p_pattern p)) as [r|] eqn:C; cbn [x_res x_words].
  2:{ intros H; injection H as <-. reflexivity. }
  destruct (exec_loop _ _ _ _ _ _ _ _ _) as [g' o] eqn:X. cbn [x_res x_words]. intros ->.
  destruct (exec_loop_scan e p r (to_lower text) ref He (Hp r C) _ 0%nat _ _ _ _ (Nat.le_0_l _) X) as (l & S & E).
  exists l. split; [exact S|exact E].
Qed.

Theorem scan_execute e p g text ref r l g' : (forall n, ev_stale e n = Some n) -> nonempty_pattern p ->
  compile (p_pattern p) = Some r -> scan e p r (to_lower text) ref 0 g l g' ->
  execute e p g text ref = {| x_words := g'; x_text := to_lower text; x_res := Ret (kept l) |}.
Proof.
  intros He Hp C S. unfold execute. rewrite C.
  pose proof (scan_exec_loop e p r (to_lower text) ref He (Hp r C) _ _ _ _ S (Nat.le_0_l _) (Datatypes.S (List.length (to_lower text))) []) as H.
  cbn [skipn] in H. rewrite H by lia. reflexivity.
Qed.

Theorem execute_fuel e p g text ref : sane e -> nonempty_pattern p ->
  (forall g tx m idx g', p_extract p e g tx m ref idx <> (g', OutOfFuel)) ->
  x_res (execute e p g text ref) <> OutOfFuel.
Proof.
  intros He Hp Hx. unfold execute. destruct (compile (p_pattern p)) as [r|] eqn:C; cbn [x_res]; [|discriminate].
  destruct (exec_loop _ _ _ _ _ _ _ _ _) as [g' o] eqn:X. cbn [x_res]. intros ->.
  pose proof (exec_loop_fuel e p r (to_lower text) ref He (Hp r C) Hx (S (List.length (to_lower text))) 0%nat g [] g') as F.
  apply F; [lia|lia|]. exact X.
Qed.

(** every result comes from one match on a suffix of the lower-cased text *)
Definition from_match (e : env) (p : parser) (r : re) (text : bytes) (ref : ptime) (res : result) (off : nat) (m : mres)
  (r0 : result) : Prop :=
  exists g g', search true r (skipn off (to_lower text)) = Some m /\
  p_extract p e g (skipn off (to_lower text)) m ref (Z.of_nat (off + m_pos m)) = (g', Ret r0) /\
  hasPossibleDates r0 = true /\ res = res_copy r0.

Lemma scan_in e p r text ref off g l g' : scan e p r text ref off g l g' ->
  forall o m res, In (o, m, res) l ->
  exists off' g1 g2, search true r (skipn off' text) = Some m /\ o = (off' + m_pos m)%nat /\
    p_extract p e g1 (skipn off' text) m ref (Z.of_nat o) = (g2, Ret res).
Proof.
  induction 1 as [off g S|off g m g1 res l g' S X Sc IH]; intros o m' res' I; [destruct I|].
  destruct I as [E|I]; [|eauto]. injection E as <- <- <-. exists off, g, g1. auto.
Qed.

Lemma kept_in l res : In res (kept l) -> exists o m r0, In (o, m, r0) l /\ hasPossibleDates r0 = true /\ res = res_copy r0.
Proof.
  unfold kept. intros I. apply in_map_iff in I as (r0 & <- & I). apply filter_In in I as [I H].
  apply in_map_iff in I as ([[o m] r1] & E & I). cbn in E. subst r1. eauto 8.
Qed.

Theorem execute_in e p g text ref rs res : sane e -> nonempty_pattern p ->
  x_res (execute e p g text ref) = Ret rs -> In res rs ->
  exists r off m r0, compile (p_pattern p) = Some r /\ from_match e p r text ref res off m r0.
Proof.
  intros He Hp H I. pose proof (execute_scan _ _ _ _ _ _ He Hp H) as S.
  destruct (compile (p_pattern p)) as [r|] eqn:C; [|subst; destruct I].
  destruct S as (l & S & ->). apply kept_in in I as (o & m & r0 & I & P & ->).
  destruct (scan_in _ _ _ _ _ _ _ _ _ S _ _ _ I) as (off & g1 & g2 & Hs & -> & X).
  exists r, off, m, r0. split; [reflexivity|]. exists g1, g2. auto.
Qed.

(** C07 *)
Lemma copy_possible r : hasPossibleDates (res_copy r) = hasPossibleDates r.
Proof. reflexivity. Qed.

Theorem execute_possible e p g text ref rs res : 
  x_res (execute e p g text ref) = Ret rs -> In res rs -> hasPossibleDates res = true.
Proof.
  unfold execute. destruct (compile (p_pattern p)) as [r|]; cbn [x_res].
  2:{ intros H; injection H as <-. intros []. }
  assert (G : forall fuel g rem acc g' rs, (forall x, In x acc -> hasPossibleDates x = true) ->
    exec_loop fuel e p r g (to_lower text) rem ref acc = (g', Ret rs) -> forall x, In x rs -> hasPossibleDates x = true).
  { induction fuel as [|fuel IH]; intros g0 rem acc g' rs0 Ha; cbn [exec_loop]; [discriminate|].
    destruct (search true r rem) as [m|].
    2:{ intros H; injection H as <- <-. intros x I. apply Ha. apply in_rev. exact I. }
    destruct (p_extract _ _ _ _ _ _ _) as [g1 o]. destruct o as [res0| | | |]; try discriminate.
    set (o2 := bind _ _). destruct o2 as [rem'| | | |]; try discriminate.
    intros H. eapply IH; [|exact H]. destruct (hasPossibleDates res0) eqn:P; [|exact Ha].
    intros x [<-|I]; [exact P|auto]. }
  destruct (exec_loop _ _ _ _ _ _ _ _ _) as [g' o] eqn:X. cbn [x_res]. intros -> I. eapply G; [|exact X|exact I]. intros x [].
Qed.

Lemma possible_meaning r : hasPossibleDates r = true <->
  getYear (r_start r) <> 0 \/ getMonth (r_start r) <> 0 \/ get_mDay (r_start r) <> 0 \/ getHour (r_start r) <> 0 \/
  getMinute (r_start r) <> 0 \/ getSeconds (r_start r) <> 0 \/ has_end r = true.
Proof.
  unfold hasPossibleDates, has_end. destruct (r_hasend r); cbn [negb andb]; rewrite ?andb_false_r; lia.
Qed.

(** C15 *)
Lemma to_lower_idem t : to_lower (to_lower t) = to_lower t.
Proof. apply low_lower. apply low_to_lower. Qed.
Theorem execute_case e p g t t' ref : to_lower t = to_lower t' -> execute e p g t ref = execute e p g t' ref.
Proof. intros H. unfold execute. rewrite H. reflexivity. Qed.
Theorem execute_text e p g t ref : x_text (execute e p g t ref) = to_lower t.
Proof. unfold execute. destruct (compile _); [|reflexivity]. destruct (exec_loop _ _ _ _ _ _ _ _ _). reflexivity. Qed.

(** ** Positions (C13, C14) *)
(** [text] of the result is what remains of the matched text after dropping [drop] leading bytes, and [index] is the
    offset of the match *)
Definition locates (drop : mres -> nat) (p : parser) : Prop := forall r e g tx m ref idx g' res,
  compile (p_pattern p) = Some r -> search true r tx = Some m ->
  p_extract p e g tx m ref idx = (g', Ret res) -> r_index res = u32 idx /\ r_text res = skipn (drop m) (m_str m).

Lemma u32_small n : Z.of_nat n < 2 ^ 32 -> u32 (Z.of_nat n) = Z.of_nat n.
Proof. intros H. unfold u32. apply Z.mod_small. lia. Qed.

Lemma skipn_skipn' {A} (l : list A) : forall a b, skipn a (skipn b l) = skipn (a + b) l.
Proof.
  induction l as [|x l IH]; intros a b; [rewrite !skipn_nil; reflexivity|].
  destruct b as [|b]; [rewrite Nat.add_0_r; reflexivity|].
  rewrite Nat.add_succ_r. cbn [skipn]. apply IH.
Qed.

Lemma scan_positions e p r text ref drop : compile (p_pattern p) = Some r -> (1 <= min_len r)%nat -> locates drop p -> Z.of_nat (List.length text) < 2 ^ 32 ->
  forall off g l g', scan e p r text ref off g l g' -> (off <= List.length text)%nat ->
  forall o m res, In (o, m, res) l ->
    (off <= o)%nat /\ getIndex res = Z.of_nat o /\ (o + List.length (m_str m) <= List.length text)%nat /\
    (1 <= List.length (m_str m))%nat /\
    firstn (List.length (m_str m)) (skipn o text) = m_str m /\ r_text res = skipn (drop m) (m_str m).
Proof.
  intros HC Hr Hl Hn off g l g' Sc. induction Sc as [off g S|off g m g1 res l g' S X Sc IH]; intros Hoff o m' res' I; [destruct I|].
  destruct (search_bounds _ _ _ Hr S) as [B1 B2]. rewrite skipn_length in B1.
  destruct I as [E|I].
  - injection E as <- <- <-. destruct (Hl _ _ _ _ _ _ _ _ _ HC S X) as [I1 I2].
    repeat split; try lia.
    + unfold getIndex. rewrite I1. apply u32_small. lia.
    + destruct (search_split _ _ _ _ S) as (pre & post & E & P & _).
      rewrite P, Nat.add_comm, <- skipn_skipn', E. rewrite skipn_app, skipn_all, Nat.sub_diag. cbn [app skipn].
      rewrite firstn_app, firstn_all, Nat.sub_diag. cbn. apply app_nil_r.
    + exact I2.
  - destruct (IH ltac:(lia) _ _ _ I) as (H1 & H2). split; [lia|exact H2].
Qed.

(** strictly ordered, non-overlapping *)
Inductive in_order (len : Z) : list result -> Prop :=
| io_nil : in_order len []
| io_cons r l : 0 <= getIndex r -> getIndex r + textLength r <= len ->
    (forall r', In r' l -> getIndex r < getIndex r' /\ getIndex r + textLength r <= getIndex r') ->
    in_order len l -> in_order len (r :: l).

Theorem scan_in_order e p r text ref drop : compile (p_pattern p) = Some r -> (1 <= min_len r)%nat -> locates drop p -> Z.of_nat (List.length text) < 2 ^ 32 ->
  forall off g l g', scan e p r text ref off g l g' -> (off <= List.length text)%nat ->
  in_order (Z.of_nat (List.length text)) (kept l).
Proof.
  intros HC Hr Hl Hn off g l g' Sc. induction Sc as [off g S|off g m g1 res l g' S X Sc IH]; intros Hoff; [constructor|].
  destruct (search_bounds _ _ _ Hr S) as [B1 B2]. rewrite skipn_length in B1.
  assert (Hrest := scan_positions _ _ _ _ _ _ HC Hr Hl Hn _ _ _ _ Sc ltac:(lia)).
  specialize (IH ltac:(lia)).
  unfold kept in *; cbn [map snd filter]. destruct (hasPossibleDates res); [|exact IH]. cbn [map].
  destruct (scan_positions _ _ _ _ _ _ HC Hr Hl Hn off g _ g' (scan_step _ _ _ _ _ _ _ _ _ _ _ _ S X Sc) Hoff _ _ _ (or_introl eq_refl))
    as (_ & P1 & P2 & P3 & _ & P4).
  assert (TL : 0 <= textLength (res_copy res) <= Z.of_nat (List.length (m_str m))).
  { unfold textLength. cbn [r_text res_copy]. rewrite P4, skipn_length. lia. }
  constructor; [change (getIndex (res_copy res)) with (getIndex res); lia
               |change (getIndex (res_copy res)) with (getIndex res); lia| |exact IH].
  intros r' I. fold (kept l) in I. apply kept_in in I as (o & m' & r0 & I & _ & ->).
  destruct (Hrest _ _ _ I) as (Q1 & Q2 & _).
  change (getIndex (res_copy res)) with (getIndex res). change (getIndex (res_copy r0)) with (getIndex r0). lia.
Qed.

Theorem execute_in_order e p g text ref rs drop : sane e -> nonempty_pattern p -> locates drop p ->
  Z.of_nat (List.length text) < 2 ^ 32 -> x_res (execute e p g text ref) = Ret rs ->
  in_order (Z.of_nat (List.length text)) rs.
Proof.
  intros He Hp Hl Hn H. pose proof (execute_scan _ _ _ _ _ _ He Hp H) as S.
  destruct (compile (p_pattern p)) as [r|] eqn:C; [|subst; constructor].
  destruct S as (l & S & ->).
  replace (List.length text) with (List.length (to_lower text)) in * by apply map_length.
  eapply scan_in_order; eauto. lia.
Qed.

(** the text of a result, cut out of the input *)
Theorem execute_located_drop e p g text ref rs res drop : sane e -> nonempty_pattern p -> locates drop p ->
  Z.of_nat (List.length text) < 2 ^ 32 -> x_res (execute e p g text ref) = Ret rs -> In res rs ->
  exists r off m, compile (p_pattern p) = Some r /\ search true r (skipn off (to_lower text)) = Some m /\
  firstn (List.length (r_text res)) (skipn (Z.to_nat (getIndex res) + drop m) (to_lower text)) = r_text res.
Proof.
  intros He Hp Hl Hn H I. pose proof (execute_scan _ _ _ _ _ _ He Hp H) as S.
  destruct (compile (p_pattern p)) as [r|] eqn:C; [|subst; destruct I].
  destruct S as (l & S & ->). apply kept_in in I as (o & m & r0 & I & P & ->).
  assert (Hn' : Z.of_nat (List.length (to_lower text)) < 2 ^ 32) by (unfold to_lower; rewrite map_length; exact Hn).
  destruct (scan_in _ _ _ _ _ _ _ _ _ S _ _ _ I) as (off & g1 & g2 & Hs & Eo & X).
  exists r, off, m. split; [reflexivity|]. split; [exact Hs|].
  destruct (scan_positions _ _ _ _ _ _ C (Hp _ C) Hl Hn' _ _ _ _ S (Nat.le_0_l _) _ _ _ I) as (_ & P1 & _ & _ & P2 & P3).
  change (getIndex (res_copy r0)) with (getIndex r0). change (r_text (res_copy r0)) with (r_text r0).
  rewrite P1, Nat2Z.id, P3, skipn_length. rewrite Nat.add_comm, <- skipn_skipn'.
  set (t := skipn o (to_lower text)) in *. rewrite <- P2 at 2. rewrite skipn_firstn_comm. reflexivity.
Qed.

Theorem execute_located e p g text ref rs res : sane e -> nonempty_pattern p -> locates (fun _ => 0%nat) p ->
  Z.of_nat (List.length text) < 2 ^ 32 -> x_res (execute e p g text ref) = Ret rs -> In res rs ->
  firstn (List.length (r_text res)) (skipn (Z.to_nat (getIndex res)) (to_lower text)) = r_text res.
Proof.
  intros He Hp Hl Hn H I. destruct (execute_located_drop _ _ _ _ _ _ _ _ He Hp Hl Hn H I) as (_ & _ & _ & _ & _ & E).
  rewrite Nat.add_0_r in E. exact E.
Qed.
