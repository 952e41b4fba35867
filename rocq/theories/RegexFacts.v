(** * RegexFacts: a declarative semantics of regular expressions, and the executor's
    soundness and completeness for it *)
From Verif Require Import Base Regex.

Lemma some_inj {A} (x y : A) : Some x = Some y -> x = y.
Proof. intros H. injection H. auto. Qed.

(** ** Declarative semantics: [mt r s s'] = starting in [s] the expression can end in [s']. *)
Inductive star_rel (R : st -> st -> Prop) : st -> st -> Prop :=
| star_nil s : star_rel R s s
| star_step s s1 s' : R s s1 -> (List.length (s_rest s1) < List.length (s_rest s))%nat ->
                      star_rel R s1 s' -> star_rel R s s'.

Fixpoint mt (ic : bool) (r : re) (s s' : st) {struct r} : Prop :=
  match r with
  | REps => s' = s
  | RSet neg items =>
      exists c t, s_rest s = c :: t /\ set_ok ic neg items c = true /\ s' = mkst (Some c) t (s_caps s)
  | RCat a b => exists s1, mt ic a s s1 /\ mt ic b s1 s'
  | RAlt a b => mt ic a s s' \/ mt ic b s s'
  | RStar _ a => star_rel (mt ic a) s s'
  | ROpt _ a => s' = s \/ mt ic a s s'
  | RGrp n a => exists s1, mt ic a s s1 /\ s' = mkst (s_prev s1) (s_rest s1) ((n, consumed s s1) :: s_caps s1)
  | RBol => at_bol s = true /\ s' = s
  | REol => at_eol s = true /\ s' = s
  | RWb neg => xorb neg (at_wb s) = true /\ s' = s
  | RLook neg a => s' = s /\ (if neg then ~ exists s1, mt ic a s s1 else exists s1, mt ic a s s1)
  end.

(** The star loop of [rm], named. *)
Definition star_loop (ic greedy : bool) (a : re) (k : st -> option st) :=
  fix star (n : nat) (s : st) {struct n} : option st :=
    match n with
    | O => None
    | S n' =>
        if greedy then
          match rm ic a s (fun s' => if Nat.ltb (List.length (s_rest s')) (List.length (s_rest s))
                                    then star n' s' else None) with
          | Some x => Some x
          | None => k s
          end
        else
          match k s with
          | Some x => Some x
          | None => rm ic a s (fun s' => if Nat.ltb (List.length (s_rest s')) (List.length (s_rest s))
                                        then star n' s' else None)
          end
    end.

Definition rm_spec (ic : bool) (r : re) : Prop := forall s k,
  (forall x, rm ic r s k = Some x -> exists s', mt ic r s s' /\ k s' = Some x) /\
  (rm ic r s k = None -> forall s', mt ic r s s' -> k s' = None).

Lemma star_loop_spec ic g a k : rm_spec ic a -> forall n s, (List.length (s_rest s) < n)%nat ->
  (forall x, star_loop ic g a k n s = Some x -> exists s', star_rel (mt ic a) s s' /\ k s' = Some x) /\
  (star_loop ic g a k n s = None -> forall s', star_rel (mt ic a) s s' -> k s' = None).
Proof.
  intros Ha. induction n as [|n IH]; intros s Hn; [lia|].
  set (kk := fun s' => if Nat.ltb (List.length (s_rest s')) (List.length (s_rest s))
                       then star_loop ic g a k n s' else None).
  assert (Hs : forall x, rm ic a s kk = Some x -> exists s', star_rel (mt ic a) s s' /\ k s' = Some x).
  { intros x E. destruct (Ha s kk) as [S _]. destruct (S x E) as (s1 & M & K). unfold kk in K.
    destruct (Nat.ltb _ _) eqn:L; [|discriminate]. apply Nat.ltb_lt in L.
    destruct (IH s1) as [I _]; [lia|]. destruct (I x K) as (s' & M' & K').
    exists s'. split; [|exact K']. eapply star_step; eauto. }
  assert (Hc : rm ic a s kk = None -> k s = None -> forall s', star_rel (mt ic a) s s' -> k s' = None).
  { intros E Ek s' M. destruct M as [s|s s1 s' M1 L M2]; [exact Ek|].
    destruct (Ha s kk) as [_ C]. specialize (C E s1 M1). unfold kk in C.
    apply Nat.ltb_lt in L. rewrite L in C. apply Nat.ltb_lt in L.
    destruct (IH s1) as [_ I]; [lia|]. apply I; assumption. }
  cbn [star_loop]. fold (star_loop ic g a k). fold kk.
  destruct g.
  - destruct (rm ic a s kk) as [y|] eqn:E.
    + split; [|discriminate]. intros x Ex. injection Ex as <-. apply Hs. reflexivity.
    + split.
      * intros x Ex. exists s. split; [constructor|exact Ex].
      * intros Ek. apply Hc; [reflexivity|exact Ek].
  - destruct (k s) as [y|] eqn:Ek.
    + split; [|discriminate]. intros x Ex. injection Ex as <-. exists s. split; [constructor|exact Ek].
    + split; [exact Hs|]. intros E. apply Hc; [exact E|reflexivity].
Qed.

Theorem rm_correct ic r : rm_spec ic r.
Proof.
  induction r as [|neg items|a IHa b IHb|a IHa b IHb|g a IHa|g a IHa|n a IHa| | |neg|neg a IHa]; intros s k.
  - cbn. split; [intros x E; exists s; auto|intros E s' ->; exact E].
  - cbn. destruct (s_rest s) as [|c t] eqn:Er.
    + split; [discriminate|]. intros _ s' (c & t & E & _). discriminate.
    + destruct (set_ok ic neg items c) eqn:Ec.
      * split; [intros x E; eexists; split; [|exact E]; exists c, t; auto|].
        intros E s' (c' & t' & E' & _ & ->). injection E' as <- <-. exact E.
      * split; [discriminate|]. intros _ s' (c' & t' & E' & Hc & _). injection E' as <- <-. congruence.
  - cbn [rm mt]. destruct (IHa s (fun s' => rm ic b s' k)) as [Sa Ca]. split.
    + intros x E. destruct (Sa x E) as (s1 & M1 & E1). destruct (IHb s1 k) as [Sb _].
      destruct (Sb x E1) as (s' & M2 & E2). exists s'. eauto.
    + intros E s' (s1 & M1 & M2). destruct (IHb s1 k) as [_ Cb]. apply Cb; [|exact M2]. apply (Ca E s1 M1).
  - cbn [rm mt]. destruct (IHa s k) as [Sa Ca]. destruct (IHb s k) as [Sb Cb].
    destruct (rm ic a s k) as [y|] eqn:E.
    + split; [|discriminate]. intros x Ex. injection Ex as <-. destruct (Sa y eq_refl) as (s' & M & K). eauto.
    + split.
      * intros x Ex. destruct (Sb x Ex) as (s' & M & K). eauto.
      * intros Eb s' [M|M]; [apply Ca; auto|apply Cb; auto].
  - change (rm ic (RStar g a) s k) with (star_loop ic g a k (S (List.length (s_rest s))) s).
    change (mt ic (RStar g a)) with (star_rel (mt ic a)).
    apply star_loop_spec; [exact IHa|lia].
  - cbn [rm mt]. destruct (IHa s k) as [Sa Ca]. destruct g.
    + destruct (rm ic a s k) as [y|] eqn:E.
      * split; [|discriminate]. intros x Ex. injection Ex as <-. destruct (Sa y eq_refl) as (s' & M & K). eauto.
      * split; [intros x Ex; exists s; auto|]. intros Ek s' [->|M]; [exact Ek|apply Ca; auto].
    + destruct (k s) as [y|] eqn:Ek.
      * split; [|discriminate]. intros x Ex. injection Ex as <-. exists s. auto.
      * split; [intros x Ex; destruct (Sa x Ex) as (s' & M & K); eauto|].
        intros E s' [->|M]; [exact Ek|apply Ca; auto].
  - cbn [rm mt]. destruct (IHa s (fun s' => k (mkst (s_prev s') (s_rest s') ((n, consumed s s') :: s_caps s')))) as [Sa Ca].
    split.
    + intros x E. destruct (Sa x E) as (s1 & M & K). eexists. split; [|exact K]. eauto.
    + intros E s' (s1 & M & ->). apply (Ca E s1 M).
  - cbn. destruct (at_bol s) eqn:E.
    + split; [intros x Ex; exists s; auto|intros Ex s' [_ ->]; exact Ex].
    + split; [discriminate|intros _ s' [D _]; discriminate].
  - cbn. destruct (at_eol s) eqn:E.
    + split; [intros x Ex; exists s; auto|intros Ex s' [_ ->]; exact Ex].
    + split; [discriminate|intros _ s' [D _]; discriminate].
  - cbn [rm mt]. destruct (xorb neg (at_wb s)) eqn:E.
    + split; [intros x Ex; exists s; auto|intros Ex s' [_ ->]; exact Ex].
    + split; [discriminate|intros _ s' [D _]; discriminate].
  - cbn [rm mt]. destruct (IHa s Some) as [Sa Ca]. destruct (rm ic a s Some) as [y|] eqn:E.
    + assert (H : exists s1, mt ic a s s1) by (destruct (Sa y eq_refl) as (s1 & M & _); eauto).
      destruct neg.
      * split; [discriminate|]. intros _ s' [_ N]. contradiction.
      * split; [intros x Ex; exists s; auto|intros Ex s' [-> _]; exact Ex].
    + assert (H : ~ exists s1, mt ic a s s1) by (intros (s1 & M); specialize (Ca eq_refl s1 M); discriminate).
      destruct neg.
      * split; [intros x Ex; exists s; auto|intros Ex s' [-> _]; exact Ex].
      * split; [discriminate|]. intros _ s' [_ N]. contradiction.
Qed.

Lemma rm_sound ic r s k x : rm ic r s k = Some x -> exists s', mt ic r s s' /\ k s' = Some x.
Proof. apply rm_correct. Qed.
Lemma rm_none ic r s k : rm ic r s k = None -> forall s', mt ic r s s' -> k s' = None.
Proof. apply rm_correct. Qed.
Lemma rm_complete ic r s s' : mt ic r s s' -> exists x, rm ic r s Some = Some x.
Proof.
  intros M. destruct (rm ic r s Some) as [x|] eqn:E; [eauto|].
  pose proof (rm_none _ _ _ _ E _ M). discriminate.
Qed.

(** ** Words: [lang r w] forgets the context (assertions are empty). *)
Fixpoint lang (ic : bool) (r : re) (w : bytes) {struct r} : Prop :=
  match r with
  | RSet neg items => exists c, w = [c] /\ set_ok ic neg items c = true
  | RCat a b => exists u v, w = u ++ v /\ lang ic a u /\ lang ic b v
  | RAlt a b => lang ic a w \/ lang ic b w
  | RStar _ a => exists ws, w = List.concat ws /\ Forall (fun x => x <> [] /\ lang ic a x) ws
  | ROpt _ a => w = [] \/ lang ic a w
  | RGrp _ a => lang ic a w
  | _ => w = []
  end.

(** last character, if any *)
Definition lastc (w : bytes) (p : option ascii) : option ascii := fold_left (fun _ c => Some c) w p.
Lemma lastc_app u v p : lastc (u ++ v) p = lastc v (lastc u p).
Proof. apply fold_left_app. Qed.

(** groups of an expression *)
Fixpoint groups (r : re) : list (nat * re) :=
  match r with
  | RCat a b | RAlt a b => groups a ++ groups b
  | RStar _ a | ROpt _ a | RLook _ a => groups a
  | RGrp n a => (n, a) :: groups a
  | _ => []
  end.
Definition cap_ok (ic : bool) (gs : list (nat * re)) (c : nat * bytes) : Prop :=
  exists a, In (fst c, a) gs /\ lang ic a (snd c).

Lemma consumed_app p p' c c' w t : consumed (mkst p (w ++ t) c) (mkst p' t c') = w.
Proof.
  unfold consumed; cbn [Regex.s_rest]. rewrite app_length.
  replace (List.length w + List.length t - List.length t)%nat with (List.length w + 0)%nat by lia.
  rewrite firstn_app_2. cbn. apply app_nil_r.
Qed.

Lemma consumed_eq s s' w : s_rest s = w ++ s_rest s' -> consumed s s' = w.
Proof. destruct s, s'; cbn [Regex.s_rest]; intros ->. apply consumed_app. Qed.

Lemma cap_ok_incl ic gs gs' c : incl gs gs' -> cap_ok ic gs c -> cap_ok ic gs' c.
Proof. intros I (a & H & L). exists a. split; [apply I; exact H|exact L]. Qed.

Lemma Forall_cap_incl ic gs gs' cs : incl gs gs' -> Forall (cap_ok ic gs) cs -> Forall (cap_ok ic gs') cs.
Proof. intros I. apply Forall_impl. intros c. apply cap_ok_incl. exact I. Qed.

(** What a run consumes and captures. *)
Theorem mt_word ic r : forall s s', mt ic r s s' ->
  exists w cs, s_rest s = w ++ s_rest s' /\ s_prev s' = lastc w (s_prev s) /\ lang ic r w /\
               s_caps s' = cs ++ s_caps s /\ Forall (cap_ok ic (groups r)) cs.
Proof.
  induction r as [|neg items|a IHa b IHb|a IHa b IHb|g a IHa|g a IHa|n a IHa| | |neg|neg a IHa]; intros s s'; cbn [mt groups].
  - intros ->. exists [], []. repeat split; auto.
  - intros (c & t & E & H & ->). exists [c], []. cbn. repeat split; auto. exists c. auto.
  - intros (s1 & Ma & Mb). destruct (IHa _ _ Ma) as (w1 & c1 & E1 & P1 & L1 & C1 & F1).
    destruct (IHb _ _ Mb) as (w2 & c2 & E2 & P2 & L2 & C2 & F2).
    exists (w1 ++ w2), (c2 ++ c1). repeat split.
    + rewrite <- app_assoc, <- E2. exact E1.
    + rewrite lastc_app, <- P1. exact P2.
    + exists w1, w2. auto.
    + rewrite <- app_assoc, <- C1. exact C2.
    + apply Forall_app. split; [eapply Forall_cap_incl; [|exact F2]|eapply Forall_cap_incl; [|exact F1]]; intros x Hx; apply in_or_app; auto.
  - intros [M|M].
    + destruct (IHa _ _ M) as (w & cs & E & P & L & C & F). exists w, cs. repeat split; auto. { left; exact L. }
      eapply Forall_cap_incl; [|exact F]. intros x Hx; apply in_or_app; auto.
    + destruct (IHb _ _ M) as (w & cs & E & P & L & C & F). exists w, cs. repeat split; auto. { right; exact L. }
      eapply Forall_cap_incl; [|exact F]. intros x Hx; apply in_or_app; auto.
  - intros M. induction M as [s|s s1 s' M1 Lt M2 IH].
    + exists [], []. repeat split; auto. exists []. auto.
    + destruct (IHa _ _ M1) as (w & cs & E & P & L & C & F). destruct IH as (w2 & cs2 & E2 & P2 & (ws & -> & Fw) & C2 & F2).
      exists (w ++ List.concat ws), (cs2 ++ cs). repeat split.
      * rewrite <- app_assoc, <- E2. exact E.
      * rewrite lastc_app, <- P. exact P2.
      * exists (w :: ws). split; [reflexivity|]. constructor; [|exact Fw]. split; [|exact L].
        intros ->. rewrite E in Lt. cbn in Lt. lia.
      * rewrite <- app_assoc, <- C. exact C2.
      * apply Forall_app. auto.
  - intros [->|M].
    + exists [], []. repeat split; auto. left; reflexivity.
    + destruct (IHa _ _ M) as (w & cs & E & P & L & C & F). exists w, cs. repeat split; auto. right; exact L.
  - intros (s1 & M & ->). destruct (IHa _ _ M) as (w & cs & E & P & L & C & F).
    exists w, ((n, w) :: cs). cbn [s_rest s_prev s_caps]. repeat split; auto.
    + rewrite (consumed_eq _ _ _ E), C. reflexivity.
    + constructor.
      * exists a. cbn. auto.
      * eapply Forall_cap_incl; [|exact F]. intros x Hx; right; exact Hx.
  - intros [_ ->]. exists [], []. repeat split; auto.
  - intros [_ ->]. exists [], []. repeat split; auto.
  - intros [_ ->]. exists [], []. repeat split; auto.
  - intros [-> _]. exists [], []. repeat split; auto.
Qed.

(** ** Expressions without assertions or groups: every word of the language can be consumed anywhere. *)
Fixpoint plain (r : re) : bool :=
  match r with
  | REps | RSet _ _ => true
  | RCat a b | RAlt a b => plain a && plain b
  | RStar _ a | ROpt _ a => plain a
  | _ => false
  end.

Lemma plain_mt ic r : plain r = true -> forall w p t c, lang ic r w ->
  mt ic r (mkst p (w ++ t) c) (mkst (lastc w p) t c).
Proof.
  induction r as [|neg items|a IHa b IHb|a IHa b IHb|g a IHa|g a IHa|n a IHa| | |neg|neg a IHa];
    cbn [plain]; intros Hp w p t c; cbn [lang mt]; try discriminate.
  - intros ->. reflexivity.
  - intros (x & -> & H). exists x, t. auto.
  - apply andb_prop in Hp as [Pa Pb]. intros (u & v & -> & La & Lb).
    exists (mkst (lastc u p) (v ++ t) c). rewrite <- app_assoc, lastc_app. split; [apply IHa|apply IHb]; assumption.
  - apply andb_prop in Hp as [Pa Pb]. intros [L|L]; [left; apply IHa|right; apply IHb]; assumption.
  - intros (ws & -> & F). revert p. induction F as [|x ws [Hx Lx] F IH]; intros p; cbn [List.concat].
    + constructor.
    + rewrite <- app_assoc, lastc_app. eapply star_step; [apply IHa; [exact Hp|exact Lx]| |apply IH].
      cbn [Regex.s_rest]. destruct x as [|y x]; [congruence|]. cbn. rewrite !app_length. lia.
  - intros [->|L]; [left; reflexivity|right; apply IHa; assumption].
Qed.

Lemma plain_groups r : plain r = true -> groups r = [].
Proof.
  induction r as [|neg items|a IHa b IHb|a IHa b IHb|g a IHa|g a IHa|n a IHa| | |neg|neg a IHa]; cbn [plain groups]; intros H; try discriminate; auto.
  - apply andb_prop in H as [A B]. rewrite IHa, IHb by assumption. reflexivity.
  - apply andb_prop in H as [A B]. rewrite IHa, IHb by assumption. reflexivity.
Qed.

(** groups outside look-aheads; if none, captures are untouched *)
Lemma mt_nogroups ic r s s' : groups r = [] -> mt ic r s s' ->
  exists w, s_rest s = w ++ s_rest s' /\ s_prev s' = lastc w (s_prev s) /\ lang ic r w /\ s_caps s' = s_caps s.
Proof.
  intros G M. destruct (mt_word _ _ _ _ M) as (w & cs & E & P & L & C & F). exists w. repeat split; auto.
  rewrite G in F. destruct cs as [|x cs]; [exact C|]. inversion F as [|? ? (a & [] & _)].
Qed.

(** Convenient forms for explicit states. *)
Lemma mt_plain_inv ic r p t c s' : groups r = [] -> mt ic r (mkst p t c) s' ->
  exists w t', t = w ++ t' /\ lang ic r w /\ s' = mkst (lastc w p) t' c.
Proof.
  intros G M. destruct (mt_nogroups _ _ _ _ G M) as (w & E & P & L & C). destruct s' as [p' t' c'].
  cbn [s_rest s_prev s_caps] in *. subst. exists w, t'. auto.
Qed.

Lemma mt_grp_inv ic n r p t c s' : groups r = [] -> mt ic (RGrp n r) (mkst p t c) s' ->
  exists w t', t = w ++ t' /\ lang ic r w /\ s' = mkst (lastc w p) t' ((n, w) :: c).
Proof.
  intros G (s1 & M & ->). destruct (mt_plain_inv _ _ _ _ _ _ G M) as (w & t' & -> & L & ->).
  exists w, t'. cbn [s_prev s_rest s_caps]. rewrite consumed_app. auto.
Qed.

Lemma mt_grp ic n r w p t c : plain r = true -> lang ic r w ->
  mt ic (RGrp n r) (mkst p (w ++ t) c) (mkst (lastc w p) t ((n, w) :: c)).
Proof.
  intros P L. exists (mkst (lastc w p) t c). split; [apply plain_mt; assumption|].
  cbn [s_prev s_rest s_caps]. rewrite consumed_app. reflexivity.
Qed.

(** ** Length of matches *)
Fixpoint min_len (r : re) : nat :=
  match r with
  | RSet _ _ => 1
  | RCat a b => min_len a + min_len b
  | RAlt a b => Nat.min (min_len a) (min_len b)
  | RGrp _ a => min_len a
  | _ => 0
  end%nat.
Lemma min_len_ok ic r : forall w, lang ic r w -> (min_len r <= List.length w)%nat.
Proof.
  induction r as [|neg items|a IHa b IHb|a IHa b IHb|g a IHa|g a IHa|n a IHa| | |neg|neg a IHa]; intros w; cbn [lang min_len]; try lia.
  - intros (c & -> & _). cbn. lia.
  - intros (u & v & -> & La & Lb). specialize (IHa _ La). specialize (IHb _ Lb). rewrite app_length. lia.
  - intros [L|L]; [specialize (IHa _ L)|specialize (IHb _ L)]; lia.
  - apply IHa.
Qed.
Fixpoint max_len (r : re) : option nat :=
  match r with
  | RSet _ _ => Some 1%nat
  | RCat a b => match max_len a, max_len b with Some x, Some y => Some (x + y)%nat | _, _ => None end
  | RAlt a b => match max_len a, max_len b with Some x, Some y => Some (Nat.max x y) | _, _ => None end
  | RGrp _ a | ROpt _ a => max_len a
  | RStar _ _ => None
  | _ => Some 0%nat
  end.
Lemma max_len_ok ic r : forall w n, lang ic r w -> max_len r = Some n -> (List.length w <= n)%nat.
Proof.
  induction r as [|neg items|a IHa b IHb|a IHa b IHb|g a IHa|g a IHa|k a IHa| | |neg|neg a IHa]; intros w n; cbn [lang max_len];
    try (intros -> H; injection H as <-; cbn; lia).
  - intros (c & -> & _) H. injection H as <-. cbn. lia.
  - intros (u & v & -> & La & Lb) H. destruct (max_len a) as [x|]; [|discriminate]. destruct (max_len b) as [y|]; [|discriminate].
    injection H as <-. rewrite app_length. specialize (IHa _ _ La eq_refl). specialize (IHb _ _ Lb eq_refl). lia.
  - intros L H. destruct (max_len a) as [x|]; [|discriminate]. destruct (max_len b) as [y|]; [|discriminate].
    injection H as <-. destruct L as [L|L]; [specialize (IHa _ _ L eq_refl)|specialize (IHb _ _ L eq_refl)]; lia.
  - discriminate.
  - intros [->|L] H; [cbn; lia|eauto].
  - eauto.
Qed.

(** ** A character every match must contain *)
Definition all_ascii : list ascii := map (fun n => ascii_of_nat n) (seq 0 256).
Lemma all_ascii_in c : In c all_ascii.
Proof.
  unfold all_ascii. rewrite <- (ascii_nat_embedding c). apply in_map. apply in_seq.
  pose proof (nat_ascii_bounded c). lia.
Qed.
Lemma forall_ascii (P : ascii -> bool) : forallb P all_ascii = true -> forall c, P c = true.
Proof. intros H c. rewrite forallb_forall in H. apply H. apply all_ascii_in. Qed.

Fixpoint needs (ic : bool) (P : ascii -> bool) (r : re) : bool :=
  match r with
  | RSet neg items => forallb (fun c => negb (set_ok ic neg items c) || P c) all_ascii
  | RCat a b => needs ic P a || needs ic P b
  | RAlt a b => needs ic P a && needs ic P b
  | RGrp _ a => needs ic P a
  | _ => false
  end.
Lemma needs_ok ic P r : forall w, needs ic P r = true -> lang ic r w -> exists c, In c w /\ P c = true.
Proof.
  induction r as [|neg items|a IHa b IHb|a IHa b IHb|g a IHa|g a IHa|n a IHa| | |neg|neg a IHa]; intros w; cbn [needs lang]; try discriminate.
  - intros H (c & -> & Hc). exists c. split; [left; reflexivity|].
    pose proof (forall_ascii _ H c) as K. cbn in K. rewrite Hc in K. exact K.
  - intros H (u & v & -> & La & Lb). apply orb_prop in H as [H|H].
    + destruct (IHa _ H La) as (c & I & K). exists c. split; [apply in_or_app; auto|exact K].
    + destruct (IHb _ H Lb) as (c & I & K). exists c. split; [apply in_or_app; auto|exact K].
  - intros H [L|L]; apply andb_prop in H as [A B]; eauto.
  - eauto.
Qed.

(** every character of every match satisfies [P] *)
Fixpoint only (ic : bool) (P : ascii -> bool) (r : re) : bool :=
  match r with
  | RSet neg items => forallb (fun c => negb (set_ok ic neg items c) || P c) all_ascii
  | RCat a b | RAlt a b => only ic P a && only ic P b
  | RGrp _ a | ROpt _ a | RStar _ a => only ic P a
  | _ => true
  end.
Lemma only_ok ic P r : forall w, only ic P r = true -> lang ic r w -> Forall (fun c => P c = true) w.
Proof.
  induction r as [|neg items|a IHa b IHb|a IHa b IHb|g a IHa|g a IHa|n a IHa| | |neg|neg a IHa]; intros w; cbn [only lang];
    try (intros _ ->; constructor).
  - intros H (c & -> & Hc). constructor; [|constructor].
    pose proof (forall_ascii _ H c) as K. cbn in K. rewrite Hc in K. exact K.
  - intros H (u & v & -> & La & Lb). apply andb_prop in H as [A B]. apply Forall_app. auto.
  - intros H [L|L]; apply andb_prop in H as [A B]; auto.
  - intros H (ws & -> & F). induction F as [|x ws [_ Lx] F IH]; cbn; [constructor|]. apply Forall_app. auto.
  - intros H [->|L]; [constructor|auto].
  - auto.
Qed.

(** ** Finite languages, on lower-case words *)
Definition is_low (c : ascii) : bool := Ascii.eqb (lower c) c.
Definition low (w : bytes) : Prop := Forall (fun c => is_low c = true) w.
Definition low_ascii : list ascii := filter is_low all_ascii.

Definition prod (xs ys : list bytes) : list bytes := flat_map (fun x => map (fun y => x ++ y) ys) xs.
Fixpoint enum (ic : bool) (r : re) : option (list bytes) :=
  match r with
  | RSet neg items => Some (map (fun c => [c]) (filter (set_ok ic neg items) low_ascii))
  | RCat a b => match enum ic a, enum ic b with Some x, Some y => Some (prod x y) | _, _ => None end
  | RAlt a b => match enum ic a, enum ic b with Some x, Some y => Some (x ++ y) | _, _ => None end
  | RGrp _ a => enum ic a
  | ROpt _ a => match enum ic a with Some x => Some ([] :: x) | None => None end
  | RStar _ _ => None
  | _ => Some [[]]
  end.
Lemma in_prod x y xs ys : In x xs -> In y ys -> In (x ++ y) (prod xs ys).
Proof. intros Hx Hy. unfold prod. apply in_flat_map. exists x. split; [exact Hx|]. apply in_map. exact Hy. Qed.

Lemma enum_ok ic r : forall w l, enum ic r = Some l -> low w -> lang ic r w -> In w l.
Proof.
  induction r as [|neg items|a IHa b IHb|a IHa b IHb|g a IHa|g a IHa|n a IHa| | |neg|neg a IHa]; intros w l; cbn [enum lang];
    try (intros H _ ->; apply some_inj in H; subst l; left; reflexivity).
  - intros H Hl (c & -> & Hc). apply some_inj in H; subst l. apply (in_map (fun c => [c])). apply filter_In. split; [|exact Hc].
    apply filter_In. split; [apply all_ascii_in|]. inversion Hl; assumption.
  - intros H Hl (u & v & -> & La & Lb). destruct (enum ic a) as [x|]; [|discriminate]. destruct (enum ic b) as [y|]; [|discriminate].
    apply some_inj in H; subst l. apply Forall_app in Hl as [Hu Hv]. apply in_prod; eauto.
  - intros H Hl L. destruct (enum ic a) as [x|]; [|discriminate]. destruct (enum ic b) as [y|]; [|discriminate].
    apply some_inj in H; subst l. apply in_or_app. destruct L; eauto.
  - discriminate.
  - intros H Hl [->|L]; destruct (enum ic a) as [x|]; try discriminate; apply some_inj in H; subst l; [left; reflexivity|right; eauto].
  - eauto.
Qed.

Lemma low_to_lower t : low (to_lower t).
Proof.
  unfold low, to_lower. apply Forall_map. apply Forall_forall. intros c _.
  apply (forall_ascii (fun c => is_low (lower c))). vm_compute. reflexivity.
Qed.
Lemma low_app u v : low (u ++ v) <-> low u /\ low v.
Proof. apply Forall_app. Qed.
Lemma low_lower t : low t -> to_lower t = t.
Proof.
  induction 1 as [|c t H F IH]; [reflexivity|]. cbn. unfold is_low in H. apply Ascii.eqb_eq in H. rewrite H. f_equal. exact IH.
Qed.

(** ** Searching *)
Definition starts_match (ic : bool) (r : re) (prev : option ascii) (t : bytes) : Prop :=
  exists s', mt ic r (mkst prev t []) s'.

Lemma search_from_sound ic r : forall t prev pos m, search_from ic r prev t pos = Some m ->
  exists pre post caps,
    t = pre ++ m_str m ++ post /\ m_pos m = (pos + List.length pre)%nat /\ m_caps m = caps /\
    mt ic r (mkst (lastc pre prev) (m_str m ++ post) []) (mkst (lastc (m_str m) (lastc pre prev)) post caps) /\
    rm ic r (mkst (lastc pre prev) (m_str m ++ post) []) Some = Some (mkst (lastc (m_str m) (lastc pre prev)) post caps) /\
    lang ic r (m_str m) /\ Forall (cap_ok ic (groups r)) caps /\
    (forall pre1 c pre2, pre = pre1 ++ c :: pre2 -> ~ starts_match ic r (lastc pre1 prev) (c :: pre2 ++ m_str m ++ post)).
Proof.
  induction t as [|c t IH]; intros prev pos m; cbn [search_from].
  - destruct (rm ic r (mkst prev [] []) Some) as [s'|] eqn:E; [|discriminate].
    intros H. apply some_inj in H. subst m. cbn [m_str m_pos m_caps].
    pose proof E as E0. apply rm_sound in E as (s1 & M & K). injection K as ->.
    destruct (mt_word _ _ _ _ M) as (w & cs & Er & Ep & L & C & F). cbn [s_rest s_prev s_caps] in *.
    destruct s' as [p' t' c']. cbn [s_rest s_prev s_caps] in *.
    symmetry in Er. apply app_eq_nil in Er as [-> ->]. cbn [lastc fold_left] in Ep. subst p'. rewrite app_nil_r in C. subst c'.
    exists [], [], cs. cbn. repeat split; auto. intros pre1 c pre2 D. destruct pre1; discriminate.
  - destruct (rm ic r (mkst prev (c :: t) []) Some) as [s'|] eqn:E.
    + intros H. apply some_inj in H. subst m. cbn [m_str m_pos m_caps].
      pose proof E as E0. apply rm_sound in E as (s1 & M & K). injection K as ->.
      destruct (mt_word _ _ _ _ M) as (w & cs & Er & Ep & L & C & F). cbn [s_rest s_prev s_caps] in *.
      destruct s' as [p' t' c']. cbn [s_rest s_prev s_caps] in *. rewrite app_nil_r in C. subst c' p'.
      exists [], t', cs. rewrite Er.
      assert (W : firstn (List.length (w ++ t') - List.length t') (w ++ t') = w).
      { rewrite app_length. replace (List.length w + List.length t' - List.length t')%nat with (List.length w + 0)%nat by lia.
        rewrite firstn_app_2. cbn. apply app_nil_r. }
      rewrite W. rewrite Er in M, E0. cbn [app lastc fold_left List.length]. repeat split; auto. intros pre1 c' pre2 D. destruct pre1; discriminate.
    + intros H. destruct (IH _ _ _ H) as (pre & post & caps & Et & Hp & Hc & M & R & L & F & N).
      exists (c :: pre), post, caps. cbn [app lastc fold_left List.length]. rewrite Et at 1. repeat split; auto; [lia|].
      intros pre1 c' pre2 D. destruct pre1 as [|x pre1].
      * cbn in D. injection D as <- <-. cbn. intros (s' & M'). rewrite <- Et in M'.
        pose proof (rm_none _ _ _ _ E _ M'). discriminate.
      * cbn in D. injection D as <- D. cbn [lastc fold_left]. apply (N pre1 c' pre2 D).
Qed.

Lemma search_from_none ic r : forall t prev pos, search_from ic r prev t pos = None ->
  forall pre suf, t = pre ++ suf -> ~ starts_match ic r (lastc pre prev) suf.
Proof.
  induction t as [|c t IH]; intros prev pos H pre suf E; cbn [search_from] in H.
  - destruct (rm ic r (mkst prev [] []) Some) as [s'|] eqn:Er; [discriminate|].
    symmetry in E. apply app_eq_nil in E as [-> ->]. intros (s' & M). pose proof (rm_none _ _ _ _ Er _ M). discriminate.
  - destruct (rm ic r (mkst prev (c :: t) []) Some) as [s'|] eqn:Er; [discriminate|].
    destruct pre as [|x pre].
    + cbn in E. subst suf. intros (s' & M). pose proof (rm_none _ _ _ _ Er _ M). discriminate.
    + cbn in E. injection E as <- E. apply (IH _ _ H pre suf E).
Qed.

(** Leftmost match: if [r] can match somewhere, [search] finds something, at or before that place. *)
Lemma search_complete ic r t pre suf : t = pre ++ suf -> starts_match ic r (lastc pre None) suf ->
  exists m, search ic r t = Some m /\ (m_pos m <= List.length pre)%nat.
Proof.
  intros E M. unfold search. destruct (search_from ic r None t 0) as [m|] eqn:S.
  - exists m. split; [reflexivity|].
    destruct (search_from_sound _ _ _ _ _ _ S) as (p & q & cs & Et & Hp & _ & _ & _ & _ & _ & N).
    destruct (Nat.le_gt_cases (m_pos m) (List.length pre)) as [H|H]; [exact H|]. exfalso.
    (* pre is a proper prefix of p *)
    assert (Hlt : (List.length pre < List.length p)%nat) by lia.
    assert (Ep : p = pre ++ skipn (List.length pre) p).
    { rewrite <- (firstn_skipn (List.length pre) p) at 1. f_equal.
      assert (X : firstn (List.length pre) t = pre) by (rewrite E, <- (Nat.add_0_r (List.length pre)), firstn_app_2; cbn; apply app_nil_r).
      rewrite <- X at 2. rewrite Et, firstn_app.
      replace (List.length pre - List.length p)%nat with 0%nat by lia. cbn. symmetry; apply app_nil_r. }
    destruct (skipn (List.length pre) p) as [|c p2] eqn:Es.
    { rewrite Ep, app_length in Hlt. cbn in Hlt. lia. }
    apply (N pre c p2 Ep). replace (c :: p2 ++ m_str m ++ q) with suf; [exact M|].
    rewrite Et, Ep in E. rewrite <- app_assoc in E. apply app_inv_head in E. symmetry. exact E.
  - exfalso. apply (search_from_none _ _ _ _ _ S pre suf E M).
Qed.

(** captures as seen through [grp] *)
Lemma grp_ok ic r m n : Forall (cap_ok ic (groups r)) (m_caps m) -> n <> 0%nat ->
  grp m n = [] \/ exists a, In (n, a) (groups r) /\ lang ic a (grp m n).
Proof.
  intros F Hn. destruct n as [|n]; [congruence|]. cbn [grp].
  induction F as [|[k b] l (a & I & L) F IH]; cbn [cap_lookup]; [left; reflexivity|].
  destruct (Nat.eqb (S n) k) eqn:E; [|exact IH].
  apply Nat.eqb_eq in E. cbn [fst snd] in *. subst k. right. exists a. auto.
Qed.
