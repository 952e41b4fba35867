(** * Open: running the matcher on partly unknown texts.

    Like Symbolic.v, but the text may contain runs of unknown length (of characters all treated alike by the pattern) and may
    end in an unknown tail of which only the possible first characters are known.  The run may then be undecided. *)
From Verif Require Import Base Regex RegexFacts Symbolic.
From Coq Require Import ZifyBool ZifyNat ZifyN.
Local Open Scope nat_scope.

(** one character (actual, representative), or a run of any length (actual, representative) *)
Inductive sitem := SC (c d : ascii) | SR (w : bytes) (d : ascii).
(** what is known of the tail: its first character satisfies the predicate, and whether it may be empty *)
Record tail := Tail { t_next : ascii -> bool; t_end : bool }.
Definition closed : tail := Tail (fun _ => false) true.
(** what is known of the previous character *)
Inductive pv := PStart | PWord (b : bool) | PAny.
(** [y_seen]: how many single characters have been consumed (a lower bound for the text consumed) *)
Record ys := mky { y_prev : pv; y_items : list sitem; y_caps : list (nat * list sitem); y_seen : nat }.
Inductive r3 := Yes (s : ys) | No | Dunno.

Definition y_consumed (s s' : ys) : list sitem := firstn (List.length (y_items s) - List.length (y_items s')) (y_items s).

(** every possible next character has property [f] (if [b], an empty rest counts as having it) *)
Fixpoint next_all (tl : tail) (f : ascii -> bool) (b : bool) (l : list sitem) : bool :=
  match l with
  | [] => forallb (fun c => if t_next tl c then f c else true) all_ascii && (negb (t_end tl) || b)
  | SC c d :: _ => f d
  | SR w d :: l' => f d && next_all tl f b l'
  end.
Fixpoint has_char (l : list sitem) : bool := match l with [] => false | SC _ _ :: _ => true | SR _ _ :: l' => has_char l' end.
(** after a run of characters like [d] *)
Definition after_run (p : pv) (d : ascii) : pv :=
  match p with PWord b => if Bool.eqb b (is_word d) then p else PAny | _ => PAny end.
Definition step_if (b : bool) (x : r3) : r3 := if b then x else No.

Definition is_set (r : re) : option (bool * list citem) := match r with RSet neg items => Some (neg, items) | _ => None end.

Fixpoint yrm (ic : bool) (tl : tail) (r : re) (s : ys) (k : ys -> r3) {struct r} : r3 :=
  match r with
  | REps => k s
  | RSet neg items =>
      match y_items s with
      | SC c d :: t => if set_ok ic neg items d then k (mky (PWord (is_word d)) t (y_caps s) (S (y_seen s))) else No
      | l => if next_all tl (fun c => negb (set_ok ic neg items c)) true l then No else Dunno
      end
  | RCat a b => yrm ic tl a s (fun s' => yrm ic tl b s' k)
  | RAlt a b => match yrm ic tl a s k with No => yrm ic tl b s k | x => x end
  | RStar greedy a =>
      (fix star (n : nat) (s : ys) {struct n} : r3 :=
         match n with
         | O => Dunno
         | S n' =>
             let again := fun s' => if Nat.ltb (y_seen s) (y_seen s') then star n' s' else Dunno in
             if greedy then
               match is_set a, y_items s with
               | Some (neg, items), SR w d :: l =>
                   if set_ok ic neg items d then
                     match star n' (mky (after_run (y_prev s) d) l (y_caps s) (y_seen s)) with
                     | Yes x => Yes x
                     | No => match k (mky (after_run (y_prev s) d) (SC d d :: SR w d :: l) (y_caps s) (y_seen s)) with No => No | _ => Dunno end
                     | Dunno => Dunno
                     end
                   else match yrm ic tl a s again with No => k s | x => x end
               | _, _ => match yrm ic tl a s again with No => k s | x => x end
               end
             else match k s with No => yrm ic tl a s again | x => x end
         end) (S (List.length (y_items s))) s
  | ROpt greedy a =>
      if greedy then match yrm ic tl a s k with No => k s | x => x end
      else match k s with No => yrm ic tl a s k | x => x end
  | RGrp n a => yrm ic tl a s (fun s' => k (mky (y_prev s') (y_items s') ((n, y_consumed s s') :: y_caps s') (y_seen s')))
  | RBol => match y_prev s with PStart => k s | PWord _ => No | PAny => Dunno end
  | REol => if has_char (y_items s) then No else if next_all tl (fun _ => false) true (y_items s) then k s else Dunno
  | RWb neg =>
      match y_prev s with
      | PAny => Dunno
      | p => let b := match p with PWord b => b | _ => false end in
             if next_all tl is_word false (y_items s) then (if xorb neg (negb b) then k s else No)
             else if next_all tl (fun c => negb (is_word c)) true (y_items s) then (if xorb neg b then k s else No)
             else Dunno
      end
  | RLook neg a =>
      match yrm ic tl a s Yes with
      | Yes _ => if neg then No else k s
      | No => if neg then k s else No
      | Dunno => Dunno
      end
  end.
Definition ystar (ic : bool) (tl : tail) (greedy : bool) (a : re) (k : ys -> r3) : nat -> ys -> r3 :=
  fix star (n : nat) (s : ys) {struct n} : r3 :=
         match n with
         | O => Dunno
         | S n' =>
             let again := fun s' => if Nat.ltb (y_seen s) (y_seen s') then star n' s' else Dunno in
             if greedy then
               match is_set a, y_items s with
               | Some (neg, items), SR w d :: l =>
                   if set_ok ic neg items d then
                     match star n' (mky (after_run (y_prev s) d) l (y_caps s) (y_seen s)) with
                     | Yes x => Yes x
                     | No => match k (mky (after_run (y_prev s) d) (SC d d :: SR w d :: l) (y_caps s) (y_seen s)) with No => No | _ => Dunno end
                     | Dunno => Dunno
                     end
                   else match yrm ic tl a s again with No => k s | x => x end
               | _, _ => match yrm ic tl a s again with No => k s | x => x end
               end
             else match k s with No => yrm ic tl a s again | x => x end
         end.
Lemma yrm_star_eq ic tl g a s k : yrm ic tl (RStar g a) s k = ystar ic tl g a k (S (List.length (y_items s))) s.
Proof. reflexivity. Qed.

(** ** the actual text *)
Definition item_text (i : sitem) : bytes := match i with SC c _ => [c] | SR w _ => w end.
Definition items_text (l : list sitem) : bytes := List.concat (map item_text l).
Definition caps_text (l : list (nat * list sitem)) : list (nat * bytes) := map (fun x => (fst x, items_text (snd x))) l.
Definition tail_ok (tl : tail) (T : bytes) : Prop := match T with [] => t_end tl = true | c :: _ => t_next tl c = true end.
Definition prev_ok (p : pv) (o : option ascii) : Prop :=
  match p with PStart => o = None | PWord b => exists c, o = Some c /\ is_word c = b | PAny => True end.
Definition item_ok' (ic : bool) (R : re) (i : sitem) : Prop :=
  match i with SC c d => alike ic R (c, d) | SR w d => Forall (fun c => alike ic R (c, d)) w end.

Section Sound.
Variables (ic : bool) (R : re) (tl : tail) (T : bytes).
Hypothesis HT : tail_ok tl T.

Definition rel (s : ys) (x : st) : Prop :=
  prev_ok (y_prev s) (s_prev x) /\ s_rest x = items_text (y_items s) ++ T /\ s_caps x = caps_text (y_caps s) /\ Forall (item_ok' ic R) (y_items s).
Definition agrees (y : r3) (o : option st) : Prop :=
  match y with Yes s => exists x, o = Some x /\ rel s x | No => o = None | Dunno => True end.

Lemma next_all_ok f b l : Forall (item_ok' ic R) l -> (forall c d, alike ic R (c, d) -> f c = f d) -> next_all tl f b l = true ->
  match items_text l ++ T with [] => b = true | c :: _ => f c = true end.
Proof.
  intros G Hf. induction G as [|i l Gi Gl IH]; cbn [next_all items_text map List.concat app].
  - rewrite andb_true_iff. intros [A E]. destruct T as [|c T']; cbn in HT.
    + rewrite HT in E. exact E.
    + rewrite forallb_forall in A. specialize (A c (all_ascii_in c)). rewrite HT in A. exact A.
  - destruct i as [c d|w d]; cbn [item_text app].
    + intros E. rewrite <- E. apply Hf. exact Gi.
    + rewrite andb_true_iff. intros [E E']. specialize (IH E'). destruct w as [|c w]; [exact IH|]. cbn [app]. cbn in Gi. inversion Gi; subst. rewrite <- E. apply Hf. assumption.
Qed.
Lemma has_char_ok l : has_char l = true -> items_text l ++ T <> [].
Proof.
  induction l as [|i l IH]; [discriminate|]. destruct i as [c d|w d]; cbn; [discriminate|]. intros H. specialize (IH H). unfold items_text in IH |- *. cbn.
  destruct w; [exact IH|discriminate].
Qed.
Lemma alike_word c d : alike ic R (c, d) -> is_word c = is_word d.
Proof. intros [_ W]. exact W. Qed.

(** running over a whole run *)
Lemma run_over neg items K (P : st -> Prop) : forall w n p cs rest,
  Forall (fun c => set_ok ic neg items c = true) w -> List.length (w ++ rest) < n ->
  (forall p' m, (p' = p /\ w = [] \/ exists c, In c w /\ p' = Some c) -> List.length rest < m ->
     exists x, rstar ic true (RSet neg items) K m (mkst p' rest cs) = Some x /\ P x) ->
  exists x, rstar ic true (RSet neg items) K n (mkst p (w ++ rest) cs) = Some x /\ P x.
Proof.
  induction w as [|c w IH]; intros n p cs rest A L H.
  - apply H; [left; auto|exact L].
  - inversion A as [|? ? A1 A2]; subst. destruct n as [|n]; [lia|].
    destruct (IH n (Some c) cs rest A2) as (x & E & Px).
    + cbn in L. lia.
    + intros p' m [[-> ->]|(c' & I & ->)] Lm; apply H; auto; right; [exists c|exists c']; cbn; auto.
    + exists x. split; [|exact Px]. 
      cbn [rstar]. fold (rstar ic true (RSet neg items) K). cbn [rm s_rest app s_caps]. rewrite A1. cbn [s_rest List.length].
      rewrite (proj2 (Nat.ltb_lt _ _)) by lia. rewrite E. reflexivity.
Qed.

Lemma fae {A} (u v : list A) n : n = List.length u -> firstn n (u ++ v) = u.
Proof. intros ->. rewrite firstn_app, firstn_all, Nat.sub_diag. cbn. apply app_nil_r. Qed.
Lemma concat_suffix s x s' x' : rel s x -> rel s' x' -> (exists pre, y_items s = pre ++ y_items s') ->
  consumed x x' = items_text (y_consumed s s').
Proof.
  intros (_ & R1 & _) (_ & R2 & _) [pre E]. unfold consumed, y_consumed. rewrite R1, R2, E. unfold items_text. rewrite map_app, concat_app, <- app_assoc.
  rewrite !fae; [reflexivity| |]; rewrite !app_length; lia.
Qed.
Definition suffix (s s' : ys) : Prop := exists pre, y_items s = pre ++ y_items s'.
Lemma suffix_refl s : suffix s s. Proof. exists []. reflexivity. Qed.
Lemma suffix_trans a b c : suffix a b -> suffix b c -> suffix a c.
Proof. intros [p E] [q F]. exists (p ++ q). rewrite E, F. apply app_assoc. Qed.

Definition step (s : ys) (x : st) (s' : ys) (x' : st) : Prop := List.length (s_rest x') + y_seen s' <= List.length (s_rest x) + y_seen s.

(** *** success and failure, whatever the actual characters *)
Definition alike_item (i j : sitem) : Prop :=
  match i, j with SC _ d, SC _ d' => d = d' | SR _ d, SR _ d' => d = d' | _, _ => False end.
Definition rel0 (s : ys) (x : st) : Prop :=
  exists l, Forall2 alike_item l (y_items s) /\ Forall (item_ok' ic R) l /\ prev_ok (y_prev s) (s_prev x) /\ s_rest x = items_text l ++ T.
Definition agrees0 (y : r3) (o : option st) : Prop := match y with Yes _ => exists x, o = Some x | No => o = None | Dunno => True end.
Lemma rel_rel0 s x : rel s x -> rel0 s x.
Proof. intros (A & B & _ & D). exists (y_items s). split; [|auto]. clear. induction (y_items s) as [|[|]]; constructor; cbn; auto. Qed.
Lemma next_all_alike f b l l' : Forall2 alike_item l l' -> next_all tl f b l' = next_all tl f b l.
Proof. induction 1 as [|i j l l' A F IH]; [reflexivity|]. destruct i, j; cbn in A; try contradiction; subst; cbn [next_all]; [reflexivity|rewrite IH; reflexivity]. Qed.
Lemma has_char_alike l l' : Forall2 alike_item l l' -> has_char l' = has_char l.
Proof. induction 1 as [|i j l l' A F IH]; [reflexivity|]. destruct i, j; cbn in A; try contradiction; cbn; auto. Qed.
Lemma Forall2_suffix {A B} (P : A -> B -> Prop) l pre suf : Forall2 P l (pre ++ suf) -> exists l1 l2, l = l1 ++ l2 /\ Forall2 P l1 pre /\ Forall2 P l2 suf.
Proof. intros F. apply Forall2_app_inv_r in F. destruct F as (l1 & l2 & F1 & F2 & ->). exists l1, l2. auto. Qed.

(** failing over a whole run *)
Lemma run_fail neg items K d : forall w n p cs rest,
  Forall (fun c => set_ok ic neg items c = true /\ alike ic R (c, d)) w -> List.length (w ++ rest) < n ->
  (forall p' m, (p' = p /\ w = [] \/ exists c, In c w /\ p' = Some c) -> List.length rest < m -> rstar ic true (RSet neg items) K m (mkst p' rest cs) = None) ->
  (forall p' c w', (p' = p \/ exists c, In c w /\ p' = Some c) -> Forall (fun c => alike ic R (c, d)) (c :: w') -> List.length (c :: w') <= List.length w -> K (mkst p' (c :: w' ++ rest) cs) = None) ->
  rstar ic true (RSet neg items) K n (mkst p (w ++ rest) cs) = None.
Proof.
  induction w as [|c w IH]; intros n p cs rest A L H H2.
  - apply H; [left; auto|exact L].
  - inversion A as [|? ? [A1 A1'] A2]; subst. destruct n as [|n]; [reflexivity|].
    cbn [rstar]. fold (rstar ic true (RSet neg items) K). cbn [rm s_rest app s_caps]. rewrite A1. cbn [s_rest List.length].
    rewrite (proj2 (Nat.ltb_lt _ _)) by lia. rewrite IH; [|exact A2|cbn in L; lia| |].
    + apply (H2 p c w); [left; reflexivity| |lia]. constructor; [exact A1'|]. revert A2. apply Forall_impl. tauto.
    + intros p' m [[-> ->]|(c' & I & ->)] Lm; apply H; auto; right; [exists c|exists c']; cbn; auto.
    + intros p' c' w' [->|(c2 & I & ->)] F Lw; apply H2; auto; try (cbn in *; lia); right; [exists c|exists c2]; cbn; auto.
Qed.

Lemma ystar_sound0 g a : part ic R (RStar g a) ->
  (forall s x k K, rel0 s x -> (forall s' x', step s x s' x' -> rel0 s' x' -> agrees0 (k s') (K x')) -> agrees0 (yrm ic tl a s k) (rm ic a x K)) ->
  forall s x k K, (forall s' x', step s x s' x' -> rel0 s' x' -> agrees0 (k s') (K x')) ->
  forall n s0 x0 m, step s x s0 x0 -> rel0 s0 x0 -> List.length (s_rest x0) < m -> agrees0 (ystar ic tl g a k n s0) (rstar ic g a K m x0).
Proof.
    intros Hp IHa s x k K HK.
    induction n as [|n IHn]; intros s0 x0 m Sf Hr0 Lm; [exact I|]. destruct m as [|m]; [lia|].
    cbn [rstar ystar]. fold (ystar ic tl g a k). fold (rstar ic g a K).
    set (again := fun s' => if Nat.ltb (y_seen s0) (y_seen s') then ystar ic tl g a k n s' else Dunno).
    set (again' := fun x' => if Nat.ltb (List.length (s_rest x')) (List.length (s_rest x0)) then rstar ic g a K m x' else None).
    assert (AG : agrees0 (yrm ic tl a s0 again) (rm ic a x0 again')).
    { apply IHa; [exact Hr0|]. intros s' x' Sf' Hr'. unfold again, again'. destruct (Nat.ltb_spec (y_seen s0) (y_seen s')) as [HC|HC]; [|exact I].
      unfold step in Sf'. rewrite (proj2 (Nat.ltb_lt _ _)) by lia. apply IHn; [unfold step in *; lia|exact Hr'|lia]. }
    pose proof (HK s0 x0 Sf Hr0) as HK0.
    destruct g.
    + assert (NORM : agrees0 (match yrm ic tl a s0 again with No => k s0 | y => y end) (match rm ic a x0 again' with Some y => Some y | None => K x0 end)).
      { destruct (yrm ic tl a s0 again) as [y| |]; cbn [agrees0] in AG; [|rewrite AG; exact HK0|exact I]. destruct AG as (z & ->). exists z. auto. }
      destruct (is_set a) as [[neg items]|] eqn:Ea; [|exact NORM]. destruct (y_items s0) as [|[c d|w0 d] l0] eqn:El; try exact NORM.
      destruct (set_ok ic neg items d) eqn:Ed; [|exact NORM]. clear NORM.
      destruct a; try discriminate. injection Ea as -> ->. clear AG.
      match goal with |- agrees0 ?y _ => change (agrees0 y (rstar ic true (RSet neg items) K (S m) x0)) end.
      destruct x0 as [xp xr xc]. destruct Hr0 as (l & Hal & Hit & Hpv & Hrest). cbn [s_prev s_rest s_caps] in *. rewrite El in Hal.
      inversion Hal as [|i j l1 l2 A1 A2]; subst. destruct i as [|w d']; cbn in A1; [contradiction|subst d']. inversion Hit as [|? ? Hi Hl]; subst.
      cbn [items_text map List.concat item_text] in *. rewrite <- app_assoc in *.
      assert (Wset : Forall (fun c => set_ok ic neg items c = true) w).
      { cbn in Hi. revert Hi. apply Forall_impl. intros c [A _]. pose proof (Hp _ _ A) as E. cbn [agree fst snd] in E. apply Bool.eqb_prop in E. rewrite E. exact Ed. }
      assert (PV : forall p', (p' = xp \/ exists c, In c w /\ p' = Some c) -> prev_ok (after_run (y_prev s0) d) p').
      { intros p' Hp'. unfold after_run. destruct (y_prev s0) as [|b|] eqn:Ep; try exact I. destruct (Bool.eqb b (is_word d)) eqn:Eb; [|exact I]. apply Bool.eqb_prop in Eb.
        destruct Hp' as [->|(c & Ic & ->)]; [exact Hpv|]. exists c. split; [reflexivity|]. cbn in Hi. rewrite Forall_forall in Hi. rewrite (alike_word _ _ (Hi c Ic)). auto. }
      assert (Q : forall p' m', (p' = xp \/ exists c, In c w /\ p' = Some c) -> List.length (List.concat (map item_text l1) ++ T) < m' ->
        agrees0 (ystar ic tl true (RSet neg items) k n (mky (after_run (y_prev s0) d) l0 (y_caps s0) (y_seen s0))) (rstar ic true (RSet neg items) K m' (mkst p' (List.concat (map item_text l1) ++ T) xc))).
      { intros p' m' Hp' Lm'. apply IHn; [|exists l1; split; [exact A2|split; [exact Hl|split; [exact (PV p' Hp')|reflexivity]]]|exact Lm'].
        unfold step in *. cbn [s_rest y_seen] in *. rewrite !app_length in *. lia. }
      assert (W : forall p', p' = xp /\ w = [] \/ (exists c, In c w /\ p' = Some c) -> p' = xp \/ exists c, In c w /\ p' = Some c) by (intros p' [[-> _]|X]; auto).
      destruct (ystar ic tl true (RSet neg items) k n (mky (after_run (y_prev s0) d) l0 (y_caps s0) (y_seen s0))) as [y| |] eqn:Ey; [| |exact I].
      * cbn [agrees0]. destruct (run_over neg items K (fun _ => True) w (S m) xp xc (List.concat (map item_text l1) ++ T) Wset Lm) as (z & Ez & _); [|exists z; exact Ez].
        intros p' m' Hp' Lm'. destruct (Q p' m' (W p' Hp') Lm') as [z Ez]. exists z. auto.
      * destruct (k (mky (after_run (y_prev s0) d) (SC d d :: SR w0 d :: l0) (y_caps s0) (y_seen s0))) as [y| |] eqn:Ek; try exact I. cbn [agrees0].
        apply run_fail with (d := d).
        -- apply Forall_forall. intros c Ic. rewrite Forall_forall in Wset. cbn in Hi. rewrite Forall_forall in Hi. auto.
        -- exact Lm.
        -- intros p' m' Hp' Lm'. exact (Q p' m' (W p' Hp') Lm').
        -- intros p' c w' Hp' F Lw. assert (X : agrees0 (k (mky (after_run (y_prev s0) d) (SC d d :: SR w0 d :: l0) (y_caps s0) (y_seen s0))) (K (mkst p' (c :: w' ++ List.concat (map item_text l1) ++ T) xc))).
           { apply HK; [unfold step in *; cbn [s_rest y_seen List.length] in *; rewrite !app_length in *; cbn [List.length] in *; lia|].
             exists (SC c d :: SR w' d :: l1). split; [constructor; [reflexivity|constructor; [reflexivity|exact A2]]|].
             inversion F; subst. split; [constructor; [assumption|constructor; assumption]|]. split; [exact (PV p' Hp')|]. cbn [s_rest items_text map List.concat item_text app]. rewrite <- app_assoc. reflexivity. }
           rewrite Ek in X. exact X.
    + destruct (k s0) as [y| |]; cbn [agrees0] in HK0.
      * destruct HK0 as (z & ->). exists z. auto.
      * rewrite HK0. exact AG.
      * exact I.
Qed.

Lemma yrm_sound0 : forall r, part ic R r -> forall s x k K, rel0 s x ->
  (forall s' x', step s x s' x' -> rel0 s' x' -> agrees0 (k s') (K x')) -> agrees0 (yrm ic tl r s k) (rm ic r x K).
Proof.
  induction r as [|neg items|a IHa b IHb|a IHa b IHb|g a IHa|g a IHa|n a IHa| | |neg|neg a IHa]; intros Hp s x k K Hr HK;
    lazymatch goal with |- context [RStar] => idtac | _ => cbn [rm yrm] end.
  - apply HK; [unfold step; lia|exact Hr].
  - destruct s as [p l0 cs sn]. destruct x as [xp xr xc]. destruct Hr as (l & Hal & Hit & Hpv & Hrest). cbn [y_prev y_items y_caps y_seen s_prev s_rest s_caps] in *.
    assert (Hset : forall c d, alike ic R (c, d) -> set_ok ic neg items c = set_ok ic neg items d).
    { intros c d [A _]. pose proof (Hp _ _ A) as E. cbn [agree] in E. apply Bool.eqb_prop in E. exact E. }
    assert (NA : next_all tl (fun c => negb (set_ok ic neg items c)) true l0 = true ->
      match xr with [] => None | c :: t => if set_ok ic neg items c then K (mkst (Some c) t xc) else None end = None).
    { intros E. rewrite (next_all_alike _ _ _ _ Hal) in E. apply next_all_ok in E; [|exact Hit|intros c d A; rewrite (Hset c d A); reflexivity]. rewrite <- Hrest in E. destruct xr as [|c t]; [reflexivity|].
      destruct (set_ok ic neg items c); [discriminate|reflexivity]. }
    destruct l0 as [|[c d|w d] l0].
    + destruct (next_all _ _ _ _); [exact (NA eq_refl)|exact I].
    + inversion Hal as [|i j l1 l2 A1 A2]; subst. destruct i as [c' d'|]; cbn in A1; [subst d'|contradiction]. inversion Hit as [|? ? Hi Hl]; subst.
      cbn [items_text map List.concat item_text app]. rewrite (Hset c' d Hi). destruct (set_ok ic neg items d); [|reflexivity].
      apply HK; [unfold step; cbn; lia|]. exists l1. cbn [y_items y_prev s_prev s_rest]. split; [exact A2|]. split; [exact Hl|].
      split; [exists c'; split; [reflexivity|apply alike_word; exact Hi]|reflexivity].
    + destruct (next_all _ _ _ _); [exact (NA eq_refl)|exact I].
  - assert (Pa : part ic R a) by (intros c d A; specialize (Hp c d A); cbn in Hp; apply andb_prop in Hp; apply Hp).
    assert (Pb : part ic R b) by (intros c d A; specialize (Hp c d A); cbn in Hp; apply andb_prop in Hp; apply Hp).
    apply IHa; [exact Pa|exact Hr|]. intros s' x' Sf Hr'. apply IHb; [exact Pb|exact Hr'|]. intros s2 x2 Sf2 Hr2. apply HK; [unfold step in *; lia|exact Hr2].
  - assert (Pa : part ic R a) by (intros c d A; specialize (Hp c d A); cbn in Hp; apply andb_prop in Hp; apply Hp).
    assert (Pb : part ic R b) by (intros c d A; specialize (Hp c d A); cbn in Hp; apply andb_prop in Hp; apply Hp).
    pose proof (IHa Pa s x k K Hr HK) as A. destruct (yrm ic tl a s k) as [y| |]; cbn [agrees0] in A.
    + destruct A as (z & ->). exists z. auto.
    + rewrite A. apply IHb; assumption.
    + exact I.
  - rewrite rm_star_eq, yrm_star_eq.
    apply (ystar_sound0 g a Hp (IHa Hp) s x k K HK); [unfold step; lia|exact Hr|lia].
  - pose proof (IHa Hp s x k K Hr HK) as A. pose proof (HK s x ltac:(unfold step; lia) Hr) as B. destruct g.
    + destruct (yrm ic tl a s k); cbn [agrees0] in A; [destruct A as (z & ->); exists z; auto|rewrite A; exact B|exact I].
    + destruct (k s); cbn [agrees0] in B; [destruct B as (z & ->); exists z; auto|rewrite B; exact A|exact I].
  - apply IHa; [exact Hp|exact Hr|]. intros s' x' Sf Hr'. apply HK; [exact Sf|]. exact Hr'.
  - pose proof (HK s x ltac:(unfold step; lia) Hr) as B. destruct Hr as (l & _ & _ & Hpv & _). unfold at_bol. destruct (y_prev s); cbn in Hpv.
    + rewrite Hpv. exact B.
    + destruct Hpv as (c & -> & _). reflexivity.
    + exact I.
  - pose proof (HK s x ltac:(unfold step; lia) Hr) as B. destruct Hr as (l & Hal & Hit & _ & Hrest). rewrite (has_char_alike _ _ Hal), (next_all_alike _ _ _ _ Hal). unfold at_eol. destruct (has_char l) eqn:HC.
    + apply has_char_ok in HC. rewrite <- Hrest in HC. destruct (s_rest x); [contradiction|reflexivity].
    + destruct (next_all tl (fun _ => false) true l) eqn:NA; [|exact I]. apply next_all_ok in NA; [|exact Hit|reflexivity]. rewrite <- Hrest in NA.
      destruct (s_rest x); [exact B|discriminate].
  - pose proof (HK s x ltac:(unfold step; lia) Hr) as B. destruct Hr as (l & Hal & Hit & Hpv & Hrest). unfold at_wb. rewrite !(next_all_alike _ _ _ _ Hal).
    assert (W1 : next_all tl is_word false l = true -> word_opt (hd_error (s_rest x)) = true).
    { intros NA. apply next_all_ok in NA; [|exact Hit|intros c d A; apply alike_word; exact A]. rewrite <- Hrest in NA. destruct (s_rest x); [discriminate|exact NA]. }
    assert (W2 : next_all tl (fun c => negb (is_word c)) true l = true -> word_opt (hd_error (s_rest x)) = false).
    { intros NA. apply next_all_ok in NA; [|exact Hit|intros c d A; rewrite (alike_word c d A); reflexivity]. rewrite <- Hrest in NA. destruct (s_rest x); [reflexivity|].
      cbn. destruct (is_word a); [discriminate|reflexivity]. }
    assert (W0 : forall b, y_prev s <> PAny -> match y_prev s with PWord b => b | _ => false end = b -> word_opt (s_prev x) = b).
    { intros b N E. destruct (y_prev s); cbn in Hpv; [rewrite Hpv; exact E|destruct Hpv as (c & -> & <-); exact E|contradiction]. }
    destruct (y_prev s) as [|b|]; [| |exact I].
    + rewrite (W0 false) by (try reflexivity; discriminate). destruct (next_all tl is_word false l); [rewrite W1 by reflexivity|
        destruct (next_all tl (fun c => negb (is_word c)) true l); [rewrite W2 by reflexivity|exact I]]; cbn [negb xorb];
        match goal with |- context [xorb neg ?z] => destruct (xorb neg z) end; try reflexivity; exact B.
    + rewrite (W0 b) by (try reflexivity; discriminate). destruct (next_all tl is_word false l); [rewrite W1 by reflexivity|
        destruct (next_all tl (fun c => negb (is_word c)) true l); [rewrite W2 by reflexivity|exact I]]; destruct b; cbn [negb xorb];
        match goal with |- context [xorb neg ?z] => destruct (xorb neg z) end; try reflexivity; exact B.
  - pose proof (HK s x ltac:(unfold step; lia) Hr) as B.
    assert (A : agrees0 (yrm ic tl a s Yes) (rm ic a x Some)). { apply IHa; [exact Hp|exact Hr|]. intros s' x' _ Hr'. exists x'. auto. }
    destruct (yrm ic tl a s Yes); cbn [agrees0] in A.
    + destruct A as (z & ->). destruct neg; [reflexivity|exact B].
    + rewrite A. destruct neg; [exact B|reflexivity].
    + exact I.
Qed.
(** *** the same with the captured groups *)
Lemma yrm_sound : forall r, part ic R r -> forall s x k K, rel s x ->
  (forall s' x', suffix s s' -> step s x s' x' -> rel s' x' -> agrees (k s') (K x')) ->
  (forall s' x', step s x s' x' -> rel0 s' x' -> agrees0 (k s') (K x')) -> agrees (yrm ic tl r s k) (rm ic r x K).
Proof.
  induction r as [|neg items|a IHa b IHb|a IHa b IHb|g a IHa|g a IHa|n a IHa| | |neg|neg a IHa]; intros Hp s x k K Hr HK H0;
    assert (BASE : agrees (k s) (K x)) by (apply HK; [apply suffix_refl|unfold step; lia|exact Hr]);
    pose proof (yrm_sound0 _ Hp s x k K (rel_rel0 _ _ Hr) H0) as S0;
    lazymatch goal with |- context [RStar] => idtac | _ => cbn [rm yrm] in S0 |- * end.
  - exact BASE.
  - destruct s as [p l cs sn]. destruct x as [xp xr xc]. destruct Hr as (Hpv & Hrest & Hcaps & Hit). cbn [y_prev y_items y_caps y_seen s_prev s_rest s_caps] in *.
    destruct l as [|[c d|w d] l].
    + destruct (next_all _ _ _ _); [exact S0|exact I].
    + inversion Hit as [|? ? Hi Hl]; subst. cbn [items_text map List.concat item_text app] in *.
      assert (Hset : set_ok ic neg items c = set_ok ic neg items d). { destruct Hi as [A _]. pose proof (Hp _ _ A) as E. cbn [agree fst snd] in E. apply Bool.eqb_prop in E. exact E. }
      rewrite Hset in *. destruct (set_ok ic neg items d); [|reflexivity].
      apply HK; [exists [SC c d]; reflexivity|unfold step; cbn; lia|]. split; [exists c; split; [reflexivity|apply alike_word; exact Hi]|]. split; [reflexivity|]. split; [reflexivity|exact Hl].
    + destruct (next_all _ _ _ _); [exact S0|exact I].
  - assert (Pa : part ic R a) by (intros c d A; specialize (Hp c d A); cbn in Hp; apply andb_prop in Hp; apply Hp).
    assert (Pb : part ic R b) by (intros c d A; specialize (Hp c d A); cbn in Hp; apply andb_prop in Hp; apply Hp).
    apply IHa; [exact Pa|exact Hr| |].
    + intros s' x' Sf St Hr'. apply IHb; [exact Pb|exact Hr'| |].
      * intros s2 x2 Sf2 St2 Hr2. apply HK; [eapply suffix_trans; eassumption|unfold step in *; lia|exact Hr2].
      * intros s2 x2 St2 Hr2. apply H0; [unfold step in *; lia|exact Hr2].
    + intros s' x' St Hr'. apply yrm_sound0; [exact Pb|exact Hr'|]. intros s2 x2 St2 Hr2. apply H0; [unfold step in *; lia|exact Hr2].
  - assert (Pa : part ic R a) by (intros c d A; specialize (Hp c d A); cbn in Hp; apply andb_prop in Hp; apply Hp).
    assert (Pb : part ic R b) by (intros c d A; specialize (Hp c d A); cbn in Hp; apply andb_prop in Hp; apply Hp).
    pose proof (IHa Pa s x k K Hr HK H0) as A. destruct (yrm ic tl a s k) as [y| |]; cbn [agrees] in A.
    + destruct A as (z & -> & Hz). exists z. auto.
    + rewrite A. apply IHb; assumption.
    + exact I.
  - destruct (yrm ic tl (RStar g a) s k) as [yy| |] eqn:Eyy; [|exact S0|exact I]. clear S0. rewrite rm_star_eq. rewrite yrm_star_eq in Eyy.
    assert (G : forall n s0 x0 m y, suffix s s0 -> step s x s0 x0 -> rel s0 x0 -> List.length (s_rest x0) < m -> ystar ic tl g a k n s0 = Yes y -> exists z, rstar ic g a K m x0 = Some z /\ rel y z);
      [|refine (G _ s x _ _ (suffix_refl s) (Nat.le_refl _) Hr (Nat.lt_succ_diag_r _) Eyy)].
    pose proof (ystar_sound0 g a Hp ltac:(intros; apply yrm_sound0; [exact Hp| |]; assumption) s x k K H0) as P0.
    clear Eyy yy. induction n as [|n IHn]; intros s0 x0 m y Sf St Hr0 Lm Ey; [discriminate|]. destruct m as [|m]; [lia|].
    cbn [rstar ystar] in Ey |- *. fold (ystar ic tl g a k) in Ey. fold (rstar ic g a K).
    set (again := fun s' => if Nat.ltb (y_seen s0) (y_seen s') then ystar ic tl g a k n s' else Dunno) in Ey.
    set (again' := fun x' => if Nat.ltb (List.length (s_rest x')) (List.length (s_rest x0)) then rstar ic g a K m x' else None).
    assert (AG : agrees (yrm ic tl a s0 again) (rm ic a x0 again')).
    { apply IHa; [exact Hp|exact Hr0| |].
      - intros s' x' Sf' St' Hr'. unfold again, again'. destruct (Nat.ltb_spec (y_seen s0) (y_seen s')) as [HC|HC]; [|exact I].
        unfold step in St'. rewrite (proj2 (Nat.ltb_lt _ _)) by lia.
        destruct (ystar ic tl g a k n s') as [z| |] eqn:Ez; cbn [agrees]; [|pose proof (P0 n s' x' m ltac:(unfold step in *; lia) (rel_rel0 _ _ Hr') ltac:(lia)) as X; rewrite Ez in X; exact X|exact I].
        apply (IHn s' x' m z); [eapply suffix_trans; eassumption|unfold step in *; lia|exact Hr'|lia|exact Ez].
      - intros s' x' St' Hr'. unfold again, again'. destruct (Nat.ltb_spec (y_seen s0) (y_seen s')) as [HC|HC]; [|exact I].
        unfold step in St'. rewrite (proj2 (Nat.ltb_lt _ _)) by lia. apply P0; [unfold step in *; lia|exact Hr'|lia]. }
    pose proof (HK s0 x0 Sf St Hr0) as HK0.
    destruct g.
    + assert (NORM : match yrm ic tl a s0 again with No => k s0 | y => y end = Yes y -> exists z, (match rm ic a x0 again' with Some y => Some y | None => K x0 end) = Some z /\ rel y z).
      { destruct (yrm ic tl a s0 again) as [y'| |]; cbn [agrees] in AG; intros E; [injection E as ->|rewrite AG; rewrite E in HK0; exact HK0|discriminate]. destruct AG as (z & -> & Hz). exists z. auto. }
      destruct (is_set a) as [[neg items]|] eqn:Ea; [|exact (NORM Ey)]. destruct (y_items s0) as [|[c d|w d] l] eqn:El; try exact (NORM Ey).
      destruct (set_ok ic neg items d) eqn:Ed; [|exact (NORM Ey)]. clear NORM.
      destruct a; try discriminate. injection Ea as -> ->. clear AG.
      match goal with |- exists z, _ = Some z /\ _ => change (exists z, rstar ic true (RSet neg items) K (S m) x0 = Some z /\ rel y z) end.
      destruct (ystar ic tl true (RSet neg items) k n (mky (after_run (y_prev s0) d) l (y_caps s0) (y_seen s0))) as [y'| |] eqn:Ey'; [injection Ey as ->|destruct (k (mky _ _ _ _)); discriminate|discriminate].
      destruct x0 as [xp xr xc]. destruct Hr0 as (Hpv & Hrest & Hcaps & Hit). cbn [s_prev s_rest s_caps] in *. rewrite El in Hrest, Hit. inversion Hit as [|? ? Hi Hl]; subst.
      cbn [items_text map List.concat item_text] in *. rewrite <- app_assoc in *. apply run_over.
      * cbn in Hi. revert Hi. apply Forall_impl. intros c [A _]. pose proof (Hp _ _ A) as E. cbn [agree fst snd] in E. apply Bool.eqb_prop in E. rewrite E. exact Ed.
      * exact Lm.
      * intros p' m' Hp' Lm'. apply (IHn (mky (after_run (y_prev s0) d) l (y_caps s0) (y_seen s0)) (mkst p' (List.concat (map item_text l) ++ T) (caps_text (y_caps s0)))); [eapply suffix_trans; [exact Sf|]; exists [SR w d]; exact El| | |exact Lm'|exact Ey'].
        -- unfold step in *. cbn [s_rest y_seen] in *. rewrite !app_length in *. lia.
        -- split; [|split; [reflexivity|split; [reflexivity|exact Hl]]]. cbn [y_prev s_prev]. unfold after_run.
           destruct (y_prev s0) as [|b|] eqn:Ep; try exact I. destruct (Bool.eqb b (is_word d)) eqn:Eb; [|exact I]. apply Bool.eqb_prop in Eb.
           destruct Hp' as [[-> _]|(c & Ic & ->)]; [exact Hpv|]. exists c. split; [reflexivity|]. cbn in Hi. rewrite Forall_forall in Hi. rewrite (alike_word _ _ (Hi c Ic)). auto.
    + destruct (k s0) as [y'| |]; cbn [agrees] in HK0; [injection Ey as ->; destruct HK0 as (z & -> & Hz); exists z; auto| |discriminate].
      rewrite HK0. rewrite Ey in AG. exact AG.
  - pose proof (IHa Hp s x k K Hr HK H0) as A. destruct g.
    + destruct (yrm ic tl a s k); cbn [agrees] in A; [destruct A as (z & -> & Hz); exists z; auto|rewrite A; exact BASE|exact I].
    + destruct (k s); cbn [agrees] in BASE; [destruct BASE as (z & -> & Hz); exists z; auto|rewrite BASE; exact A|exact I].
  - apply IHa; [exact Hp|exact Hr| |].
    + intros s' x' Sf St Hr'. apply HK; [exact Sf|exact St|]. pose proof (concat_suffix _ _ _ _ Hr Hr' Sf) as C.
      destruct Hr' as (A & B & D & E). split; [exact A|]. split; [exact B|]. split; [|exact E]. cbn [s_caps y_caps caps_text map fst snd]. rewrite C, D. reflexivity.
    + intros s' x' St Hr'. apply H0; [exact St|exact Hr'].
  - destruct Hr as (Hpv & _). unfold at_bol in *. destruct (y_prev s); cbn in Hpv.
    + rewrite Hpv. exact BASE.
    + destruct Hpv as (c & -> & _). reflexivity.
    + exact I.
  - destruct Hr as (_ & Hrest & _ & Hit). unfold at_eol in *. destruct (has_char (y_items s)) eqn:HC; [exact S0|].
    destruct (next_all tl (fun _ => false) true (y_items s)) eqn:NA; [|exact I]. apply next_all_ok in NA; [|exact Hit|reflexivity]. rewrite <- Hrest in NA.
    destruct (s_rest x); [exact BASE|discriminate].
  - destruct Hr as (Hpv & Hrest & _ & Hit). unfold at_wb in *.
    assert (W1 : next_all tl is_word false (y_items s) = true -> word_opt (hd_error (s_rest x)) = true).
    { intros NA. apply next_all_ok in NA; [|exact Hit|intros c d A; apply alike_word; exact A]. rewrite <- Hrest in NA. destruct (s_rest x); [discriminate|exact NA]. }
    assert (W2 : next_all tl (fun c => negb (is_word c)) true (y_items s) = true -> word_opt (hd_error (s_rest x)) = false).
    { intros NA. apply next_all_ok in NA; [|exact Hit|intros c d A; rewrite (alike_word c d A); reflexivity]. rewrite <- Hrest in NA. destruct (s_rest x); [reflexivity|].
      cbn. destruct (is_word a); [discriminate|reflexivity]. }
    assert (W0 : forall b, y_prev s <> PAny -> match y_prev s with PWord b => b | _ => false end = b -> word_opt (s_prev x) = b).
    { intros b N E. destruct (y_prev s); cbn in Hpv; [rewrite Hpv; exact E|destruct Hpv as (c & -> & <-); exact E|contradiction]. }
    clear S0. destruct (y_prev s) as [|b|]; [| |exact I].
    + rewrite (W0 false) by (try reflexivity; discriminate). destruct (next_all tl is_word false (y_items s)); [rewrite W1 by reflexivity|
        destruct (next_all tl (fun c => negb (is_word c)) true (y_items s)); [rewrite W2 by reflexivity|exact I]]; cbn [negb xorb];
        match goal with |- context [xorb neg ?z] => destruct (xorb neg z) end; try reflexivity; exact BASE.
    + rewrite (W0 b) by (try reflexivity; discriminate). destruct (next_all tl is_word false (y_items s)); [rewrite W1 by reflexivity|
        destruct (next_all tl (fun c => negb (is_word c)) true (y_items s)); [rewrite W2 by reflexivity|exact I]]; destruct b; cbn [negb xorb];
        match goal with |- context [xorb neg ?z] => destruct (xorb neg z) end; try reflexivity; exact BASE.
  - assert (A : agrees0 (yrm ic tl a s Yes) (rm ic a x Some)). { apply yrm_sound0; [exact Hp|apply rel_rel0; exact Hr|]. intros s' x' _ Hr'. exists x'. auto. }
    destruct (yrm ic tl a s Yes); cbn [agrees0] in A.
    + destruct A as (z & ->). destruct neg; [reflexivity|exact BASE].
    + rewrite A. destruct neg; [exact BASE|reflexivity].
    + exact I.
Qed.
End Sound.

(** ** std::regex_search *)
Fixpoint ysearch (ic : bool) (tl : tail) (r : re) (p : pv) (l : list sitem) (pos : nat) : option (nat * list sitem * list (nat * list sitem)) :=
  match yrm ic tl r (mky p l [] 0) Yes with
  | Yes s => Some (pos, firstn (List.length l - List.length (y_items s)) l, y_caps s)
  | Dunno => None
  | No => match l with SC c d :: l' => ysearch ic tl r (PWord (is_word d)) l' (S pos) | _ => None end
  end.
Definition yres (x : nat * list sitem * list (nat * list sitem)) : mres :=
  let '(p, w, c) := x in {| m_pos := p; m_str := items_text w; m_caps := caps_text c |}.

Lemma yrm_suffix ic tl : forall r s k y, yrm ic tl r s k = Yes y -> (forall s', suffix s s' -> forall y', k s' = Yes y' -> suffix s' y') -> suffix s y.
Proof.
  induction r as [|neg items|a IHa b IHb|a IHa b IHb|g a IHa|g a IHa|n a IHa| | |neg|neg a IHa]; intros s k y E H;
    lazymatch goal with _ : context [RStar] |- _ => idtac | _ => cbn [yrm] in E end.
  - apply (H s (suffix_refl s) y E).
  - destruct (y_items s) as [|[c d|w d] l] eqn:El.
    + destruct (next_all _ _ _ _); discriminate.
    + destruct (set_ok ic neg items d); [|discriminate]. assert (Sf : suffix s (mky (PWord (is_word d)) l (y_caps s) (S (y_seen s)))) by (exists [SC c d]; exact El).
      eapply suffix_trans; [exact Sf|]. apply (H _ Sf y E).
    + destruct (next_all _ _ _ _); discriminate.
  - apply (IHa _ _ _ E). intros s' Sf y' E'. apply (IHb _ _ _ E'). intros s2 Sf2 y2 E2. apply (H s2); [eapply suffix_trans; eassumption|exact E2].
  - destruct (yrm ic tl a s k) as [z| |] eqn:Ea; [injection E as ->; apply (IHa _ _ _ Ea H)|apply (IHb _ _ _ E H)|discriminate].
  - rewrite yrm_star_eq in E. revert E. generalize (S (List.length (y_items s))) as n.
    assert (G : forall n s0, suffix s s0 -> forall y0, ystar ic tl g a k n s0 = Yes y0 -> suffix s0 y0); [|intros n E; apply (G n s (suffix_refl s) y E)].
    induction n as [|n IHn]; intros s0 Sf y0 E; [discriminate|]. cbn [ystar] in E. fold (ystar ic tl g a k) in E.
    set (again := fun s' => if Nat.ltb (y_seen s0) (y_seen s') then ystar ic tl g a k n s' else Dunno) in E.
    assert (A : forall z, yrm ic tl a s0 again = Yes z -> suffix s0 z).
    { intros z Ez. apply (IHa _ _ _ Ez). intros s' Sf' y' E'. unfold again in E'. destruct (Nat.ltb _ _); [|discriminate]. apply (IHn s'); [eapply suffix_trans; eassumption|exact E']. }
    assert (B : forall z, match yrm ic tl a s0 again with No => k s0 | x => x end = Yes z -> suffix s0 z).
    { intros z Ez. destruct (yrm ic tl a s0 again) as [z'| |] eqn:Ea; [injection Ez as ->; apply A; reflexivity|apply (H s0 Sf z Ez)|discriminate]. }
    destruct g.
    + destruct (is_set a) as [[neg items]|]; [|exact (B _ E)]. destruct (y_items s0) as [|[c d|w d] l] eqn:El; try exact (B _ E).
      destruct (set_ok ic neg items d); [|exact (B _ E)].
      destruct (ystar ic tl true a k n (mky (after_run (y_prev s0) d) l (y_caps s0) (y_seen s0))) as [z| |] eqn:Ez; [injection E as ->|destruct (k (mky _ _ _ _)); discriminate|discriminate].
      assert (S1 : suffix s0 (mky (after_run (y_prev s0) d) l (y_caps s0) (y_seen s0))) by (exists [SR w d]; exact El).
      eapply suffix_trans; [exact S1|]. apply (IHn _ (suffix_trans _ _ _ Sf S1) _ Ez).
    + destruct (k s0) as [z| |] eqn:Ek; [injection E as ->; apply (H s0 Sf _ Ek)|apply A; exact E|discriminate].
  - destruct g.
    + destruct (yrm ic tl a s k) as [z| |] eqn:Ea; [injection E as ->; apply (IHa _ _ _ Ea H)|apply (H s (suffix_refl s) _ E)|discriminate].
    + destruct (k s) as [z| |] eqn:Ek; [injection E as ->; apply (H s (suffix_refl s) _ Ek)|apply (IHa _ _ _ E H)|discriminate].
  - apply (IHa _ _ _ E). intros s' Sf y' E'. pose proof (H (mky (y_prev s') (y_items s') ((n, y_consumed s s') :: y_caps s') (y_seen s')) Sf y' E') as [pre Q]. exists pre. exact Q.
  - destruct (y_prev s); try discriminate. apply (H s (suffix_refl s) _ E).
  - destruct (has_char _); [discriminate|]. destruct (next_all _ _ _ _); [|discriminate]. apply (H s (suffix_refl s) _ E).
  - destruct (y_prev s); try discriminate; destruct (next_all _ _ _ _); try (destruct (next_all _ _ _ _); [|discriminate]);
      match type of E with (if ?z then _ else _) = _ => destruct z end; try discriminate; apply (H s (suffix_refl s) _ E).
  - destruct (yrm ic tl a s Yes); try discriminate; destruct neg; try discriminate; apply (H s (suffix_refl s) _ E).
Qed.

Lemma ysearch_ok ic r tl T : tail_ok tl T -> forall l p o pos x, Forall (item_ok' ic r) l -> prev_ok p o -> ysearch ic tl r p l pos = Some x ->
  search_from ic r o (items_text l ++ T) pos = Some (yres x).
Proof.
  intros HT. induction l as [|i l IH]; intros p o pos x G Hp E; cbn [ysearch] in E.
  - assert (Hr : rel ic r T (mky p [] [] 0) (mkst o T [])) by (split; [exact Hp|split; [reflexivity|split; [reflexivity|exact G]]]).
    pose proof (yrm_sound ic r tl T HT r ltac:(intros ? ? A; exact A) _ _ Yes Some Hr ltac:(intros s' x' _ _ R'; exists x'; auto) ltac:(intros s' x' _ _; exists x'; auto)) as A.
    destruct (yrm ic tl r (mky p [] [] 0) Yes) as [s| |] eqn:Ey; try discriminate. injection E as <-. destruct A as (z & Ez & (_ & Zr & Zc & _)).
    destruct (yrm_suffix _ _ _ _ _ _ Ey ltac:(intros s' _ y' Q; injection Q as ->; apply suffix_refl)) as [pre Q]. cbn in Q. destruct (y_items s) eqn:Ei; [|destruct pre; discriminate].
    cbn [items_text map List.concat app] in *. destruct T as [|c T']; cbn [search_from]; rewrite Ez, Zr, Zc, ?Nat.sub_diag; reflexivity.
  - assert (Hr : rel ic r T (mky p (i :: l) [] 0) (mkst o (items_text (i :: l) ++ T) [])) by (split; [exact Hp|split; [reflexivity|split; [reflexivity|exact G]]]).
    pose proof (yrm_sound ic r tl T HT r ltac:(intros ? ? A; exact A) _ _ Yes Some Hr ltac:(intros s' x' _ _ R'; exists x'; auto) ltac:(intros s' x' _ _; exists x'; auto)) as A.
    destruct (yrm ic tl r (mky p (i :: l) [] 0) Yes) as [s| |] eqn:Ey; [| |discriminate].
    + injection E as <-. destruct A as (z & Ez & Hz). pose proof (yrm_suffix _ _ _ _ _ _ Ey ltac:(intros s' _ y' Q; injection Q as ->; apply suffix_refl)) as Sf.
      pose proof (concat_suffix ic r T _ _ _ _ Hr Hz Sf) as C. unfold consumed, y_consumed in C. cbn [s_rest y_items] in C.
      destruct Hz as (_ & Zr & Zc & _). destruct (items_text (i :: l) ++ T) as [|c t]; cbn [search_from]; rewrite Ez, Zc; unfold yres; do 2 f_equal; exact C.
    + cbn [agrees] in A. destruct i as [c d|w d]; [|discriminate]. inversion G as [|? ? Gi Gl]; subst. cbn [items_text map List.concat item_text app] in *. cbn [search_from]. rewrite A.
      apply (IH (PWord (is_word d)) (Some c) (S pos) x Gl); [|exact E]. exists c. split; [reflexivity|]. apply Gi.
Qed.
Theorem open_search ic r tl T l x : tail_ok tl T -> Forall (item_ok' ic r) l -> ysearch ic tl r PStart l 0 = Some x ->
  search ic r (items_text l ++ T) = Some (yres x).
Proof. intros HT G E. apply (ysearch_ok ic r tl T HT l PStart None 0 x G eq_refl E). Qed.

(** ** building the items *)
(** the text [a], which reads [w] up to letter case *)
Fixpoint cased (a w : bytes) : list sitem := match w with [] => [] | d :: w' => SC (hd d a) d :: cased (tl a) w' end.
Lemma items_text_app l l' : items_text (l ++ l') = items_text l ++ items_text l'.
Proof. unfold items_text. rewrite map_app, concat_app. reflexivity. Qed.
Lemma items_text_cons i l : items_text (i :: l) = item_text i ++ items_text l.
Proof. reflexivity. Qed.
Lemma cased_text : forall w a, List.length a = List.length w -> items_text (cased a w) = a.
Proof.
  induction w as [|d w IH]; intros [|c a] L; try discriminate; [reflexivity|]. cbn [cased hd tl]. rewrite items_text_cons, IH by (cbn in L; lia). reflexivity.
Qed.
Lemma upper_lower c : upper (lower c) = upper c.
Proof. apply Ascii.eqb_eq. revert c. apply (forall_ascii (fun c => Ascii.eqb (upper (lower c)) (upper c))). vm_compute. reflexivity. Qed.
Lemma class_lower k c : class_ok k (lower c) = class_ok k c.
Proof. apply Bool.eqb_prop. destruct k; revert c; [apply (forall_ascii (fun c => Bool.eqb (is_digit (lower c)) (is_digit c)))|apply (forall_ascii (fun c => Bool.eqb (is_space (lower c)) (is_space c)))|apply (forall_ascii (fun c => Bool.eqb (is_word (lower c)) (is_word c)))]; vm_compute; reflexivity. Qed.
Lemma set_ok_case neg items c d : lower c = lower d -> set_ok true neg items c = set_ok true neg items d.
Proof.
  intros E. assert (E2 : upper c = upper d). { rewrite <- (upper_lower c), <- (upper_lower d), E. reflexivity. }
  assert (K : forall k, class_ok k c = class_ok k d).
  { intros k. rewrite <- (class_lower k c), <- (class_lower k d), E. reflexivity. }
  unfold set_ok. f_equal. induction items as [|i items IH]; [reflexivity|]. cbn [existsb]. rewrite IH. f_equal. destruct i as [x|lo hi|n k]; cbn [item_ok]; rewrite ?E, ?E2, ?K; reflexivity.
Qed.

Lemma alike_case r c d : lower c = lower d -> alike true r (c, d).
Proof.
  intros E. split; cbn [fst snd]; [|exact (eq_trans (eq_sym (class_lower KWord c)) (eq_trans (f_equal is_word E) (class_lower KWord d)))].
  induction r; cbn [agree]; try reflexivity; try assumption.
  - rewrite (set_ok_case _ _ c d E). apply Bool.eqb_reflx.
  - rewrite IHr1, IHr2. reflexivity.
  - rewrite IHr1, IHr2. reflexivity.
Qed.
Lemma cased_ok r : forall w a, to_lower a = to_lower w -> Forall (item_ok' true r) (cased a w).
Proof.
  induction w as [|d w IH]; intros [|c a] E; try discriminate; [constructor|]. cbn in E. injection E as E1 E2. constructor; [apply alike_case; exact E1|]. apply IH. exact E2.
Qed.
Lemma lower_length a w : to_lower a = to_lower w -> List.length a = List.length w.
Proof. intros E. apply (f_equal (@List.length _)) in E. unfold to_lower in E. rewrite !map_length in E. exact E. Qed.
(** a run of characters of one class *)
Lemma run_ok ic r f d w : class_alike ic r f d = true -> Forall (fun c => f c = true) w -> item_ok' ic r (SR w d).
Proof. intros H F. cbn. revert F. apply Forall_impl. intros c. apply class_alike_ok. exact H. Qed.
Lemma char_ok ic r f d c : class_alike ic r f d = true -> f c = true -> item_ok' ic r (SC c d).
Proof. intros H F. cbn. apply (class_alike_ok ic r f d H c F). Qed.
