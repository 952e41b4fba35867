(** * FoundFacts: a phrase that the pattern takes wherever it stands is found exactly where it stands *)
From Verif Require Import Base Regex RegexParse Calendar Components Utils Execute Spec View ParserSpec CalendarCycle CalendarFacts RegexFacts ResultFacts
  ExecuteFacts ParserRe MatchFacts LocateFacts HistoryFacts ParserFacts Symbolic Open.
From Coq Require Import ZifyBool ZifyNat ZifyN.
Open Scope list_scope.
Open Scope nat_scope.

(** ** The scan comes across every place where a match starts *)
(** the word table of the process before some extraction, as it was in the beginning or as the extractions left it *)
Definition leads (e : env) (p : parser) (r : re) (text : bytes) (ref : Z) (g g0 : gwords) : Prop :=
  forall J : gwords -> Prop, (forall h off m idx, search true r (skipn off text) = Some m -> J h -> J (fst (p_extract p e h (skipn off text) m ref idx))) -> J g -> J g0.
Lemma scan_covers e p r text ref pre suf : 1 <= min_len r -> text = pre ++ suf ->
  (forall k, k <= List.length pre -> starts_match true r (lastc (skipn k pre) None) suf) ->
  forall off g l g', scan e p r text ref off g l g' -> off <= List.length pre ->
  exists k m res g0 g1, k <= List.length pre /\ search true r (skipn k text) = Some m /\ k + m_pos m <= List.length pre /\ List.length pre < k + m_pos m + List.length (m_str m) /\
    p_extract p e g0 (skipn k text) m ref (Z.of_nat (k + m_pos m)) = (g1, Ret res) /\ In (k + m_pos m, m, res) l /\ leads e p r text ref g g0.
Proof.
  intros Hr E St off g l g' Sc. induction Sc as [off g Sn|off g m g1 res l g' Sm X Sc IH]; intros Ho.
  - exfalso. destruct (search_complete true r (skipn off text) (skipn off pre) suf) as (m & Sm & _); [|apply St; exact Ho|congruence].
    rewrite E, skipn_app. replace (off - List.length pre) with 0 by lia. reflexivity.
  - destruct (search_complete true r (skipn off text) (skipn off pre) suf) as (m' & Sm' & P).
    { rewrite E, skipn_app. replace (off - List.length pre) with 0 by lia. reflexivity. }
    { apply St. exact Ho. }
    rewrite Sm in Sm'. injection Sm' as <-. rewrite skipn_length in P.
    destruct (Nat.le_gt_cases (off + m_pos m + List.length (m_str m)) (List.length pre)) as [Q|Q].
    + destruct (IH Q) as (k & m' & r' & g2 & g3 & A1 & A2 & A3 & A4 & A5 & A6). exists k, m', r', g2, g3. do 5 (split; [assumption|]). destruct A6 as [A6 A7]. split; [right; exact A6|].
      intros J Hj Jg. apply A7; [exact Hj|]. replace g1 with (fst (p_extract p e g (skipn off text) m ref (Z.of_nat (off + m_pos m)))) by (rewrite X; reflexivity). apply Hj; [exact Sm|exact Jg].
    + exists off, m, res, g, g1. do 2 (split; [assumption|]). split; [lia|]. split; [exact Q|]. split; [exact X|]. split; [left; reflexivity|]. intros J _ Jg. exact Jg.
Qed.

(** the match starts exactly there, if no match can start earlier and reach into the phrase *)
Lemma scan_exact e p r text ref pre suf : 1 <= min_len r -> text = pre ++ suf ->
  (forall k, k <= List.length pre -> starts_match true r (lastc (skipn k pre) None) suf) ->
  (forall x a b v, pre = x ++ a -> a <> [] -> suf = b ++ v -> b <> [] -> ~ lang true r (a ++ b)) ->
  forall g l g', scan e p r text ref 0 g l g' ->
  exists k m res g0 g1, k <= List.length pre /\ search true r (skipn k text) = Some m /\ k + m_pos m = List.length pre /\
    p_extract p e g0 (skipn k text) m ref (Z.of_nat (List.length pre)) = (g1, Ret res) /\ In (List.length pre, m, res) l /\ leads e p r text ref g g0.
Proof.
  intros Hr E St No g l g' Sc. destruct (scan_covers e p r text ref pre suf Hr E St 0 g l g' Sc ltac:(lia)) as (k & m & res & g0 & g1 & A1 & A2 & A3 & A4 & A5 & A6 & A7).
  assert (Q : k + m_pos m = List.length pre).
  { destruct (Nat.eq_dec (k + m_pos m) (List.length pre)) as [|N]; [assumption|exfalso].
    destruct (search_split _ _ _ _ A2) as (q & s & Et & P & L & _).
    assert (Ek : skipn k text = skipn k pre ++ suf) by (rewrite E, skipn_app; replace (k - List.length pre) with 0 by lia; reflexivity).
    rewrite Ek in Et. assert (Lq : List.length q < List.length (skipn k pre)) by (rewrite skipn_length; lia).
    apply app_eq_app in Et as (a & [(Ea & Eb)|(Ea & Eb)]).
    2:{ apply (f_equal (@List.length _)) in Ea. rewrite app_length in Ea. lia. }
    (* skipn k pre = q ++ a, m_str ++ s = a ++ suf *)
    apply app_eq_app in Eb as (b & [(Em & Es)|(Ea' & Es)]).
    + apply (No (firstn k pre ++ q) a b s).
      * rewrite <- (firstn_skipn k pre) at 1. rewrite Ea, app_assoc. reflexivity.
      * intros ->. rewrite app_nil_r in Ea. rewrite Ea in Lq. lia.
      * exact Es.
      * intros ->. rewrite app_nil_r in Em. rewrite Em in A4. apply (f_equal (@List.length _)) in Ea. rewrite skipn_length, app_length in Ea. lia.
      * rewrite <- Em. exact L.
    + apply (f_equal (@List.length _)) in Ea. apply (f_equal (@List.length _)) in Ea'. rewrite skipn_length, app_length in Ea. rewrite app_length in Ea'. lia. }
  exists k, m, res, g0, g1. rewrite Q in A5, A6. auto 10.
Qed.

Lemma same_place (a b x y : bytes) : List.length a = List.length b -> a ++ x = b ++ y -> a = b /\ x = y.
Proof.
  revert b. induction a as [|c a IH]; intros [|d b] L E; cbn in L; try lia; [auto|]. cbn in E. injection E as <- E. destruct (IH b ltac:(lia) E) as [-> ->]. auto.
Qed.
(** what the search found at a known place *)
Lemma search_at r t m pre suf : search true r t = Some m -> t = pre ++ suf -> m_pos m = List.length pre ->
  exists post, suf = m_str m ++ post /\ rm true r (mkst (lastc pre None) suf []) Some = Some (mkst (lastc (m_str m) (lastc pre None)) post (m_caps m)).
Proof.
  intros H E P. destruct (search_from_sound _ _ _ _ _ _ H) as (q & post & caps & Et & Pq & C & _ & R & _). subst caps.
  rewrite E in Et. cbn in Pq. assert (pre = q /\ suf = m_str m ++ post) as [<- ->].
  { rewrite P in Pq. clear - Et Pq. revert q Et Pq. induction pre as [|x pre IH]; intros [|y q] Et Pq; cbn in Pq; try lia; [auto|]. cbn in Et. injection Et as <- Et. destruct (IH q Et ltac:(lia)) as [-> ->]. auto. }
  exists post. auto.
Qed.

(** ** Matches that reach into a phrase: a small automaton *)
Section Straddle.
Variable Q : list (ascii -> bool).
Let N := List.length Q.
Definition at_ (q : nat) : ascii -> bool := nth q Q (fun _ => false).
Definition hop (q : nat) (c : ascii) (q' : nat) : Prop := (q = 0 /\ q' = 0) \/ (q' = S q /\ at_ q c = true) \/ (q = N /\ q' = N).
Fixpoint path (q : nat) (w : bytes) (q' : nat) : Prop := match w with [] => q = q' | c :: w => exists q1, hop q c q1 /\ path q1 w q' end.
Lemma path_app u : forall q v q', path q (u ++ v) q' -> exists q1, path q u q1 /\ path q1 v q'.
Proof. induction u as [|c u IH]; intros q v q' H; [exists q; split; [reflexivity|exact H]|]. destruct H as (q1 & H1 & H). destruct (IH _ _ _ H) as (q2 & A & B). exists q2. split; [exists q1; auto|exact B]. Qed.
Definition union (a b : list nat) : list nat := nodup Nat.eq_dec (a ++ b).
Lemma in_union a b x : In x a \/ In x b -> In x (union a b).
Proof. intros H. apply nodup_In. apply in_or_app. exact H. Qed.
(** [existsb], stopping at the first success *)
Fixpoint any {A} (f : A -> bool) (l : list A) : bool := match l with [] => false | x :: l => if f x then true else any f l end.
Lemma any_in {A} (f : A -> bool) l x : In x l -> f x = true -> any f l = true.
Proof. induction l as [|y l IH]; intros I E; [contradiction|]. cbn [any]. destruct I as [->|I]; [rewrite E; reflexivity|]. destruct (f y); auto. Qed.
Definition hops (neg : bool) (items : list citem) (q : nat) : list nat :=
  (if Nat.eqb q 0 then [0] else []) ++ (if any (fun c => if at_ q c then if is_low c then set_ok true neg items c else false else false) all_ascii then [S q] else []) ++ (if Nat.eqb q N then [N] else []).
Definition subsetb (a b : list nat) : bool := forallb (fun x => existsb (Nat.eqb x) b) a.
Section Images.
(** where a character class may lead from a state *)
Variable hs : bool -> list citem -> nat -> list nat.
Fixpoint img (r : re) (s : list nat) : option (list nat) :=
  match r with
  | RSet neg items => Some (nodup Nat.eq_dec (flat_map (hs neg items) s))
  | RCat a b => match img a s with Some s1 => img b s1 | None => None end
  | RAlt a b => match img a s, img b s with Some x, Some y => Some (union x y) | _, _ => None end
  | ROpt _ a => match img a s with Some x => Some (union s x) | None => None end
  | RStar _ a =>
      let t := Nat.iter (S N) (fun t => match img a t with Some x => union t x | None => t end) s in
      match img a t with Some x => if subsetb x t then Some t else None | None => None end
  | RGrp _ a => img a s
  | _ => Some s
  end.
Lemma subsetb_ok a b x : subsetb a b = true -> In x a -> In x b.
Proof. intros H I. unfold subsetb in H. rewrite forallb_forall in H. specialize (H x I). apply existsb_exists in H as (y & Iy & E). apply Nat.eqb_eq in E. subst y. exact Iy. Qed.
Lemma iter_incl a n s x : In x s -> In x (Nat.iter n (fun t => match img a t with Some x => union t x | None => t end) s).
Proof. intros I. induction n as [|n IH]; [exact I|]. cbn [Nat.iter]. simpl. destruct (img a _); [apply in_union; left; exact IH|exact IH]. Qed.
Definition covers : Prop := forall neg items q c q', is_low c = true -> set_ok true neg items c = true -> hop q c q' -> In q' (hs neg items q).
Lemma img_ok r : covers -> forall s s', img r s = Some s' -> forall w q q', lang true r w -> low w -> In q s -> path q w q' -> In q' s'.
Proof.
  intros Cv. induction r as [|neg items|a IHa b IHb|a IHa b IHb|g a IHa|g a IHa|n a IHa| | |neg|neg a IHa]; intros s s'; cbn [img lang].
  all: try (intros E w q q' -> _ I P; apply some_inj in E; subst s'; cbn in P; subst q'; exact I).
  - intros E w q q' (c & -> & Hc) Lw I P. apply some_inj in E. subst s'. apply nodup_In. apply in_flat_map. exists q. split; [exact I|].
    destruct P as (q1 & P & P1). cbn in P1. subst q1. inversion Lw as [|? ? Lc _]; subst. exact (Cv _ _ _ _ _ Lc Hc P).
  - destruct (img a s) as [s1|] eqn:E1; [|discriminate]. intros E w q q' (u & v & -> & La & Lb) Lw I P. apply low_app in Lw as [Lu Lv]. apply path_app in P as (q1 & P1 & P2). eauto.
  - destruct (img a s) as [x|] eqn:E1; [|discriminate]. destruct (img b s) as [y|] eqn:E2; [|discriminate]. intros E w q q' L Lw I P. apply some_inj in E. subst s'. apply in_union. destruct L as [L|L]; [left|right]; eauto.
  - cbv zeta. set (t := Nat.iter (S N) _ s). destruct (img a t) as [x|] eqn:E1; [|discriminate]. destruct (subsetb x t) eqn:E2; [|discriminate].
    intros E w q q' (ws & -> & F) Lw I P. apply some_inj in E. subst s'. assert (It : In q t) by (apply iter_incl; exact I). clear I. revert q It P. induction F as [|y ws [_ Ly] F IH]; intros q It P; cbn [List.concat] in *.
    + cbn in P. subst q'. exact It.
    + apply low_app in Lw as [Lu Lv]. apply path_app in P as (q1 & P1 & P2). apply (IH Lv q1); [|exact P2]. apply (subsetb_ok x t); [exact E2|]. eapply IHa; eauto.
  - destruct (img a s) as [x|] eqn:E1; [|discriminate]. intros E w q q' L Lw I P. apply some_inj in E. subst s'. apply in_union. destruct L as [->|L]; [cbn in P; subst q'; left; exact I|right; eauto].
  - eauto.
Qed.
End Images.
Lemma hops_cover : covers hops.
Proof.
  intros neg items q c q' Lc Hc P. unfold hops. destruct P as [[-> ->]|[[-> P]|[-> ->]]].
  - left. reflexivity.
  - apply in_or_app. right. apply in_or_app. left. rewrite (any_in _ all_ascii c (all_ascii_in c)); [left; reflexivity|]. rewrite Lc, Hc, P. reflexivity.
  - apply in_or_app. right. apply in_or_app. right. rewrite Nat.eqb_refl. left. reflexivity.
Qed.
Definition no_straddle_by (hs : bool -> list citem -> nat -> list nat) (r : re) : bool := match img hs r [0] with Some s => forallb (fun q => Nat.leb q 1) s | None => false end.
Definition no_straddle (r : re) : bool := match img hops r [0] with Some s => forallb (fun q => Nat.leb q 1) s | None => false end.
Lemma path_zero u : forall v q', path 0 v q' -> path 0 (u ++ v) q'.
Proof. induction u as [|c u IH]; intros v q' H; [exact H|]. exists 0. split; [left; auto|auto]. Qed.
Lemma path_along b : forall q, (forall i c, nth_error b i = Some c -> q + i < N -> at_ (q + i) c = true) -> q <= N -> path q b (Nat.min N (q + List.length b)).
Proof.
  induction b as [|c b IH]; intros q H Hq; [cbn; lia|]. cbn [path List.length].
  destruct (Nat.eq_dec q N) as [->|D].
  - exists N. split; [right; right; auto|]. replace (Nat.min N (N + S (List.length b))) with (Nat.min N (N + List.length b)) by lia. apply IH; [|lia]. intros i c' _ L. lia.
  - exists (S q). split; [right; left; split; [reflexivity|]; specialize (H 0 c eq_refl); rewrite Nat.add_0_r in H; apply H; lia|].
    replace (q + S (List.length b)) with (S q + List.length b) by lia. apply IH; [|lia]. intros i c' Ei L. replace (S q + i) with (q + S i) by lia. apply H; [exact Ei|lia].
Qed.
End Straddle.

(** [Ps]: what is known of the first characters of the phrase; [P0]: of the character before it *)
Lemma straddle_by hs (P0 : ascii -> bool) Ps r x c b v w1 w2 : covers (P0 :: Ps) hs -> no_straddle_by (P0 :: Ps) hs r = true -> 1 <= List.length Ps -> P0 c = true -> Forall2 (fun P c => P c = true) Ps w1 ->
  low (x ++ c :: b) -> b <> [] -> w1 ++ w2 = b ++ v -> ~ lang true r (x ++ c :: b).
Proof.
  intros Cv H Hn Hc F Lw Nb E L. unfold no_straddle_by in H. destruct (img _ _ r [0]) as [s|] eqn:Ei; [|discriminate].
  pose proof (path_along (P0 :: Ps) (c :: b) 0) as Pa. cbn [List.length] in Pa.
  assert (Len : List.length Ps = List.length w1) by (clear - F; induction F; cbn; lia).
  assert (A : forall i y, nth_error (c :: b) i = Some y -> i < S (List.length Ps) -> at_ (P0 :: Ps) i y = true).
  { intros [|i] y Ey Li; cbn in Ey; [injection Ey as <-; exact Hc|]. unfold at_. cbn [nth].
    assert (Ew : nth_error w1 i = Some y).
    { assert (Eb : nth_error (b ++ v) i = Some y) by (rewrite nth_error_app1; [exact Ey|apply nth_error_Some; congruence]). rewrite <- E, nth_error_app1 in Eb by lia. exact Eb. }
    clear - F Ew. revert i Ew. induction F as [|P z Ps w1 Hz F IH]; intros [|i] Ew; try discriminate; cbn in *; [injection Ew as ->; exact Hz|auto]. }
  specialize (Pa A ltac:(lia)). apply (path_zero _ x) in Pa. pose proof (img_ok _ _ r Cv _ _ Ei _ _ _ L Lw (or_introl eq_refl) Pa) as I.
  rewrite forallb_forall in H. specialize (H _ I). apply Nat.leb_le in H. destruct b; [congruence|]. cbn [List.length] in H. lia.
Qed.

Lemma straddle_ok (P0 : ascii -> bool) Ps r x c b v w1 w2 : no_straddle (P0 :: Ps) r = true -> 1 <= List.length Ps -> P0 c = true -> Forall2 (fun P c => P c = true) Ps w1 ->
  low (x ++ c :: b) -> b <> [] -> w1 ++ w2 = b ++ v -> ~ lang true r (x ++ c :: b).
Proof. intros H. apply (straddle_by (hops (P0 :: Ps))); [apply hops_cover|exact H]. Qed.
(** the same for a known beginning of the phrase, after a character that is no word character: quicker to compute *)
Definition wordy (neg : bool) (items : list citem) : bool := negb neg && forallb (fun i => match i with CChar d => is_word d | CRange lo hi => Ascii.eqb lo "0" && Ascii.eqb hi "9" | CClass _ _ => false end) items.
Lemma word_case c : is_word (lower c) = is_word c.
Proof. pose proof (forall_ascii (fun c => Bool.eqb (is_word (lower c)) (is_word c)) ltac:(vm_compute; reflexivity) c) as Q. cbv beta in Q. apply Bool.eqb_prop in Q. exact Q. Qed.
Lemma wordy_ok neg items c : wordy neg items = true -> set_ok true neg items c = true -> is_word c = true.
Proof.
  intros W H. apply andb_prop in W as [Wn W]. destruct neg; [discriminate|]. unfold set_ok in H. change (existsb (item_ok true c) items = true) in H || (destruct (existsb (item_ok true c) items) eqn:H'; [clear H; rename H' into H|discriminate]). apply existsb_exists in H as (i & Ii & Hi).
  rewrite forallb_forall in W. specialize (W i Ii). destruct i as [d|lo hi|]; [..|discriminate].
  - cbn [item_ok] in Hi. apply Ascii.eqb_eq in Hi. rewrite <- (word_case c), Hi, word_case. exact W.
  - apply andb_prop in W as [W1 W2]. apply Ascii.eqb_eq in W1. apply Ascii.eqb_eq in W2. subst lo hi.
    pose proof (forall_ascii (fun c => implb (item_ok true c (CRange "0" "9")) (is_word c)) ltac:(vm_compute; reflexivity) c) as Q. cbv beta in Q. rewrite Hi in Q. exact Q.
Qed.
Definition known_hops (w : bytes) (neg : bool) (items : list citem) (q : nat) : list nat :=
  match q with 0 => 0 :: (if wordy neg items then [] else [1]) | S i => (match nth_error w i with Some c => if set_ok true neg items c then [S q] else [] | None => [] end) ++ (if Nat.eqb i (List.length w) then [q] else []) end.
Definition known_Q (w : bytes) : list (ascii -> bool) := (fun c => negb (is_word c)) :: map Ascii.eqb w.
Lemma known_cover w : covers (known_Q w) (known_hops w).
Proof.
  intros neg items q c q' _ Hc P. unfold hop in P. unfold known_Q in P. cbn [List.length] in P. rewrite map_length in P. unfold known_hops.
  destruct P as [[-> ->]|[[-> P]|[-> ->]]]; [left; reflexivity| |].
  - destruct q as [|i].
    + cbn in P. destruct (wordy neg items) eqn:W; [rewrite (wordy_ok _ _ _ W Hc) in P; discriminate|right; left; reflexivity].
    + unfold at_ in P. cbn [nth] in P. destruct (nth_error w i) as [d|] eqn:E.
      * assert (nth i (map Ascii.eqb w) (fun _ => false) c = Ascii.eqb d c) as X.
        { clear - E. revert i E. induction w as [|x w IH]; intros [|i] E; try discriminate; cbn in *; [injection E as ->; reflexivity|apply IH; exact E]. }
        rewrite X in P. apply Ascii.eqb_eq in P. subst d. rewrite Hc. left. reflexivity.
      * apply nth_error_None in E. rewrite nth_overflow in P by (rewrite map_length; exact E). discriminate.
  - rewrite Nat.eqb_refl. apply in_or_app. right. left. reflexivity.
Qed.
Lemma eqb_self w : Forall2 (fun P c => P c = true) (map Ascii.eqb w) w.
Proof. induction w as [|c w IH]; constructor; [apply Ascii.eqb_refl|exact IH]. Qed.
Definition known_clear (w : bytes) (r : re) : bool := no_straddle_by (known_Q w) (known_hops w) r.
Lemma known_ok w r x c b v w2 : known_clear w r = true -> w <> [] -> is_word c = false -> low (x ++ c :: b) -> b <> [] -> w ++ w2 = b ++ v -> ~ lang true r (x ++ c :: b).
Proof.
  intros H N Hc. apply (straddle_by (known_hops w) (fun c => negb (is_word c)) (map Ascii.eqb w) r x c b v w w2 (known_cover w) H); [rewrite map_length; destruct w; [congruence|cbn; lia]|rewrite Hc; reflexivity|apply eqb_self].
Qed.

(** ** Phrases in a text *)
Lemma lastc_skipn_word pre k : (forall a c, pre = a ++ [c] -> is_word c = false) -> word_opt (lastc (skipn k pre) None) = false.
Proof.
  intros H. assert (Q : forall a c, skipn k pre = a ++ [c] -> is_word c = false).
  { intros a c E. apply (H (firstn k pre ++ a) c). rewrite <- app_assoc, <- E. symmetry. apply firstn_skipn. }
  destruct (skipn k pre) as [|x l] using rev_ind; [reflexivity|]. rewrite lastc_app. cbn. eapply Q. reflexivity.
Qed.
(** everything together: the phrase [w] is matched at its place, and what is extracted from it is among the results *)
Theorem found_at e p r ref text g rs pre suf : sane e -> In p all_parsers -> locates whole p -> compile (p_pattern p) = Some r -> (Z.of_nat (List.length text) < 2 ^ 32)%Z ->
  to_lower text = pre ++ suf ->
  (forall k, k <= List.length pre -> starts_match true r (lastc (skipn k pre) None) suf) ->
  (forall x a b v, pre = x ++ a -> a <> [] -> suf = b ++ v -> b <> [] -> ~ lang true r (a ++ b)) ->
  x_res (execute e p g text ref) = Ret rs ->
  exists k m g0 g1 res post, k + m_pos m = List.length pre /\ search true r (skipn k (to_lower text)) = Some m /\ low (skipn k (to_lower text)) /\ suf = m_str m ++ post /\
    rm true r (mkst (lastc (skipn k pre) None) suf []) Some = Some (mkst (lastc (m_str m) (lastc (skipn k pre) None)) post (m_caps m)) /\
    p_extract p e g0 (skipn k (to_lower text)) m ref (Z.of_nat (List.length pre)) = (g1, Ret res) /\
    getIndex res = Z.of_nat (List.length pre) /\ r_text res = m_str m /\ (hasPossibleDates res = true -> In (res_copy res) rs) /\ leads e p r (to_lower text) ref g g0.
Proof.
  intros He Ip Lc C Hn E St No X. pose proof (nonempty_all p Ip) as Ne. pose proof (execute_scan e p g text ref rs He Ne X) as Sc. rewrite C in Sc. destruct Sc as (l & Sc & ->).
  destruct (scan_exact e p r (to_lower text) ref pre suf (Ne r C) E St No g l _ Sc) as (k & m & res & g0 & g1 & A1 & A2 & A3 & A4 & A5 & A10).
  assert (Ek : skipn k (to_lower text) = skipn k pre ++ suf) by (rewrite E, skipn_app; replace (k - List.length pre) with 0 by lia; reflexivity).
  destruct (search_at _ _ _ _ _ A2 Ek) as (post & Es & R); [rewrite skipn_length; lia|].
  destruct (Lc _ _ _ _ _ _ _ _ _ C A2 A4) as [Ix Tx]. cbn [whole skipn] in Tx.
  exists k, m, g0, g1, res, post. do 2 (split; [assumption|]). split; [apply low_skipn, low_to_lower|]. do 3 (split; [assumption|]). split; [|split; [exact Tx|split; [|exact A10]]].
  - unfold getIndex. rewrite Ix. apply u32_small. assert (Ln : List.length (to_lower text) = List.length text) by (unfold to_lower; apply map_length). rewrite E, app_length in Ln. lia.
  - intros P. unfold kept. apply in_map. apply filter_In. split; [|exact P]. apply in_map_iff. exists (List.length pre, m, res). auto.
Qed.

(** without the last condition: some match covers the place *)
Theorem found_over e p r ref text g rs pre suf : sane e -> In p all_parsers -> locates whole p -> compile (p_pattern p) = Some r -> (Z.of_nat (List.length text) < 2 ^ 32)%Z ->
  to_lower text = pre ++ suf ->
  (forall k, k <= List.length pre -> starts_match true r (lastc (skipn k pre) None) suf) ->
  x_res (execute e p g text ref) = Ret rs ->
  exists k y a b v m g0 g1 res, pre = y ++ a /\ suf = b ++ v /\ b <> [] /\ m_str m = a ++ b /\ k <= List.length y /\ search true r (skipn k (to_lower text)) = Some m /\ low (skipn k (to_lower text)) /\
    rm true r (mkst (lastc (skipn k y) None) (a ++ suf) []) Some = Some (mkst (lastc (m_str m) (lastc (skipn k y) None)) v (m_caps m)) /\
    p_extract p e g0 (skipn k (to_lower text)) m ref (Z.of_nat (List.length y)) = (g1, Ret res) /\
    getIndex res = Z.of_nat (List.length y) /\ r_text res = m_str m /\ (hasPossibleDates res = true -> In (res_copy res) rs) /\ leads e p r (to_lower text) ref g g0.
Proof.
  intros He Ip Lc C Hn E St X. pose proof (nonempty_all p Ip) as Ne. pose proof (execute_scan e p g text ref rs He Ne X) as Sc. rewrite C in Sc. destruct Sc as (l & Sc & ->).
  destruct (scan_covers e p r (to_lower text) ref pre suf (Ne r C) E St 0 g l _ Sc ltac:(lia)) as (k & m & res & g0 & g1 & A1 & A2 & A3 & A4 & A5 & A6 & A7).
  assert (Ek : skipn k (to_lower text) = skipn k pre ++ suf) by (rewrite E, skipn_app; replace (k - List.length pre) with 0 by lia; reflexivity).
  set (y := firstn (k + m_pos m) pre). set (a := skipn (k + m_pos m) pre).
  assert (Ly : List.length y = k + m_pos m) by (unfold y; rewrite firstn_length; lia).
  assert (Ep : pre = y ++ a) by (symmetry; apply firstn_skipn).
  assert (Sk : skipn k pre = skipn k y ++ a) by (rewrite Ep at 1; rewrite skipn_app; replace (k - List.length y) with 0 by lia; reflexivity).
  destruct (search_at r (skipn k (to_lower text)) m (skipn k y) (a ++ suf) A2) as (v & Es & R).
  { rewrite Ek, Sk, <- app_assoc. reflexivity. }
  { rewrite skipn_length. lia. }
  destruct (Lc _ _ _ _ _ _ _ _ _ C A2 A5) as [Ix Tx]. cbn [whole skipn] in Tx.
  assert (Lp : List.length pre = List.length y + List.length a) by (rewrite Ep at 1; apply app_length).
  assert (Q : exists b, m_str m = a ++ b /\ suf = b ++ v /\ b <> []).
  { apply app_eq_app in Es as (z & [(Ea & Eb)|(Ea & Eb)]).
    - exists []. exfalso. apply (f_equal (@List.length _)) in Ea. rewrite app_length in Ea. lia.
    - exists z. split; [exact Ea|]. split; [exact Eb|]. intros ->. rewrite app_nil_r in Ea. rewrite Ea in A4. lia. }
  destruct Q as (b & Em & Eb & Nb).
  exists k, y, a, b, v, m, g0, g1, res. do 4 (split; [assumption|]). split; [lia|]. split; [exact A2|]. split; [apply low_skipn, low_to_lower|]. split; [exact R|]. rewrite Ly. split; [exact A5|].
  split; [|split; [exact Tx|split; [|exact A7]]].
  - unfold getIndex. rewrite Ix. apply u32_small. assert (Ln : List.length (to_lower text) = List.length text) by (unfold to_lower; apply map_length). rewrite E, app_length in Ln. lia.
  - intros P. unfold kept. apply in_map. apply filter_In. split; [|exact P]. apply in_map_iff. exists (k + m_pos m, m, res). auto.
Qed.

(** a phrase written as items, run with everything that may stand before and after it *)
Definition apart : tail := Tail (fun c => negb (is_word c)) true.
Lemma separate_tail pre post : separate pre post -> tail_ok apart post.
Proof. intros [_ H]. destruct post as [|c b]; [reflexivity|]. cbn. rewrite (H c b eq_refl). reflexivity. Qed.
(** what may precede: the beginning, or a character that is no word character *)
Definition sides (o : option ascii) : Prop := word_opt o = false.
Lemma sides_pv o : sides o -> prev_ok PStart o \/ prev_ok (PWord false) o.
Proof. destruct o as [c|]; [|left; reflexivity]. intros H. right. exists c. split; [reflexivity|exact H]. Qed.
Definition takes_all (tl : tail) (r : re) (l : list sitem) (c : list (nat * list sitem)) : Prop :=
  forall p, p = PStart \/ p = PWord false -> exists s, yrm true tl r (mky p l [] 0) Yes = Yes s /\ y_items s = [] /\ y_caps s = c.
Lemma takes_run tl r l c T o : takes_all tl r l c -> tail_ok tl T -> Forall (item_ok' true r) l -> sides o ->
  exists x, rm true r (mkst o (items_text l ++ T) []) Some = Some x /\ s_rest x = T /\ s_caps x = caps_text c.
Proof.
  intros H HT G Ho. assert (Q : exists p, (p = PStart \/ p = PWord false) /\ prev_ok p o) by (destruct (sides_pv o Ho); eauto). destruct Q as (p & Ip & Hp).
  destruct (H p Ip) as (s & Ey & Ei & Ec).
  assert (Hr : rel true r T (mky p l [] 0) (mkst o (items_text l ++ T) [])) by (split; [exact Hp|split; [reflexivity|split; [reflexivity|exact G]]]).
  pose proof (yrm_sound true r tl T HT r ltac:(intros ? ? A; exact A) _ _ Yes Some Hr ltac:(intros s' x' _ _ R'; exists x'; auto) ltac:(intros s' x' _ _; exists x'; auto)) as A.
  rewrite Ey in A. cbn [agrees] in A. destruct A as (z & Ez & (_ & Zr & Zc & _)). exists z. rewrite Ei in Zr. rewrite Ec in Zc. cbn in Zr. auto.
Qed.
Lemma takes_starts tl r l c T o : takes_all tl r l c -> tail_ok tl T -> Forall (item_ok' true r) l -> sides o -> starts_match true r o (items_text l ++ T).
Proof. intros H HT G Ho. destruct (takes_run tl r l c T o H HT G Ho) as (x & R & _). apply rm_sound in R as (s' & M & _). exists s'. exact M. Qed.

Lemma ends_in (l : bytes) : l <> [] -> exists x c, l = x ++ [c].
Proof. intros N. destruct (exists_last N) as (x & c & ->). eauto. Qed.
(** no earlier match reaches into the phrase *)
Lemma none_before (P0 : ascii -> bool) Ps r pre suf w1 w2 : no_straddle (P0 :: Ps) r = true -> 1 <= List.length Ps -> (forall a c, pre = a ++ [c] -> P0 c = true) ->
  Forall2 (fun P c => P c = true) Ps w1 -> suf = w1 ++ w2 -> low (pre ++ suf) ->
  forall x a b v, pre = x ++ a -> a <> [] -> suf = b ++ v -> b <> [] -> ~ lang true r (a ++ b).
Proof.
  intros H Hn Hc F Es Lo x a b v Ep Na Eb Nb. destruct (ends_in a Na) as (y & c & ->). rewrite <- app_assoc. cbn [app].
  assert (Pc : P0 c = true) by (apply (Hc (x ++ y) c); rewrite Ep, app_assoc; reflexivity).
  apply (straddle_ok P0 Ps r y c b v w1 w2 H Hn Pc F); [|exact Nb|congruence].
  rewrite Ep, Eb in Lo. replace ((x ++ y ++ [c]) ++ b ++ v) with (x ++ (y ++ c :: b) ++ v) in Lo by (rewrite <- !app_assoc; reflexivity). exact (low_part _ _ _ Lo).
Qed.

(** the same for phrases written as items *)
Theorem phrase_at_gen e p r ref text g rs pre post l c tl : sane e -> In p all_parsers -> locates whole p -> compile (p_pattern p) = Some r -> (Z.of_nat (List.length text) < 2 ^ 32)%Z ->
  to_lower text = pre ++ items_text l ++ post -> separate pre post -> tail_ok tl post -> takes_all tl r l c -> Forall (item_ok' true r) l ->
  (forall x a b v, pre = x ++ a -> a <> [] -> items_text l ++ post = b ++ v -> b <> [] -> ~ lang true r (a ++ b)) ->
  x_res (execute e p g text ref) = Ret rs ->
  exists tx m g0 g1 res, search true r tx = Some m /\ low tx /\ m_str m = items_text l /\ m_caps m = caps_text c /\
    p_extract p e g0 tx m ref (Z.of_nat (List.length pre)) = (g1, Ret res) /\
    getIndex res = Z.of_nat (List.length pre) /\ r_text res = items_text l /\ (hasPossibleDates res = true -> In (res_copy res) rs) /\ leads e p r (to_lower text) ref g g0.
Proof.
  intros He Ip Lc C Hn E Sp HT Tk G No X. pose proof Sp as [Sa _].
  destruct (found_at e p r ref text g rs pre (items_text l ++ post) He Ip Lc C Hn E) as (k & m & g0 & g1 & res & q & A1 & A2 & A3 & A4 & A5 & A6 & A7 & A8 & A9 & A10).
  - intros k _. apply (takes_starts tl r l c post _ Tk HT G). apply lastc_skipn_word. exact Sa.
  - exact No.
  - exact X.
  - destruct (takes_run tl r l c post (lastc (skipn k pre) None) Tk HT G (lastc_skipn_word _ _ Sa)) as (z & R & Zr & Zc).
    rewrite R in A5. apply some_inj in A5. subst z. cbn [s_rest s_caps] in Zr, Zc. subst q. apply app_inv_tail in A4.
    exists (skipn k (to_lower text)), m, g0, g1, res. rewrite A8, <- A4. do 5 (split; [auto|]). auto 10.
Qed.

Theorem phrase_at e p r ref text g rs pre post l c tl (P0 : ascii -> bool) Ps w1 w2 : sane e -> In p all_parsers -> locates whole p -> compile (p_pattern p) = Some r -> (Z.of_nat (List.length text) < 2 ^ 32)%Z ->
  to_lower text = pre ++ items_text l ++ post -> separate pre post -> tail_ok tl post -> takes_all tl r l c -> Forall (item_ok' true r) l ->
  no_straddle (P0 :: Ps) r = true -> 1 <= List.length Ps -> (forall a c, pre = a ++ [c] -> P0 c = true) -> Forall2 (fun P c => P c = true) Ps w1 -> items_text l ++ post = w1 ++ w2 ->
  x_res (execute e p g text ref) = Ret rs ->
  exists tx m g0 g1 res, search true r tx = Some m /\ low tx /\ m_str m = items_text l /\ m_caps m = caps_text c /\
    p_extract p e g0 tx m ref (Z.of_nat (List.length pre)) = (g1, Ret res) /\
    getIndex res = Z.of_nat (List.length pre) /\ r_text res = items_text l /\ (hasPossibleDates res = true -> In (res_copy res) rs) /\ leads e p r (to_lower text) ref g g0.
Proof.
  intros He Ip Lc C Hn E Sp HT Tk G Ns Hl H0 F Ew X. apply (phrase_at_gen e p r ref text g rs pre post l c tl); try assumption.
  apply (none_before P0 Ps r pre _ w1 w2 Ns Hl H0 F Ew). rewrite <- E. apply low_to_lower.
Qed.
Lemma leads_pure e pat f r text ref g g0 : leads e (Build_parser pat (pure_extract f)) r text ref g g0 -> g0 = g.
Proof. intros H. symmetry. apply (H (fun x => g = x)); [|reflexivity]. intros h off m idx _ <-. reflexivity. Qed.
