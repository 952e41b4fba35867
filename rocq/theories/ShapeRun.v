(** * ShapeRun: the symbolic runs of Open.v depend only on the representatives, so many texts are settled by one computation *)
From Verif Require Import Base Regex RegexFacts Symbolic Open.
From Coq Require Import ZifyBool ZifyNat ZifyN.
Local Open Scope nat_scope.
Local Open Scope list_scope.

Definition shape_of (i : sitem) : bool * ascii := match i with SC _ d => (true, d) | SR _ d => (false, d) end.
Definition weak (i j : sitem) : Prop := shape_of i = shape_of j.

Section Rel.
Variable P : sitem -> sitem -> Prop.
Hypothesis HP : forall i j, P i j -> weak i j.
Definition capr (a b : nat * list sitem) : Prop := fst a = fst b /\ Forall2 P (snd a) (snd b).
Definition ysr (s s' : ys) : Prop :=
  y_prev s = y_prev s' /\ Forall2 P (y_items s) (y_items s') /\ Forall2 capr (y_caps s) (y_caps s') /\ y_seen s = y_seen s'.
Definition r3r (a b : r3) : Prop := match a, b with Yes s, Yes s' => ysr s s' | No, No => True | Dunno, Dunno => True | _, _ => False end.
Definition kr (k k' : ys -> r3) : Prop := forall s s', ysr s s' -> r3r (k s) (k' s').
End Rel.
Lemma weak_of (P : sitem -> sitem -> Prop) : (forall i j, P i j -> weak i j) -> forall l l', Forall2 P l l' -> Forall2 weak l l'.
Proof. intros H l l' F. induction F; constructor; auto. Qed.
Lemma ysr_weak (P : sitem -> sitem -> Prop) : (forall i j, P i j -> weak i j) -> forall s s', ysr P s s' -> ysr weak s s'.
Proof.
  intros H s s' (A & B & C & D). split; [exact A|]. split; [eapply weak_of; eauto|]. split; [|exact D].
  clear - C H. induction C as [|x y l l' [E F] C IH]; constructor; [split; [exact E|eapply weak_of; eauto]|exact IH].
Qed.
Lemma next_all_weak tl f b l l' : Forall2 weak l l' -> next_all tl f b l = next_all tl f b l'.
Proof.
  induction 1 as [|i j l l' W F IH]; [reflexivity|]. unfold weak in W. destruct i, j; cbn in *; try discriminate; injection W as ->; [reflexivity|]. rewrite IH. reflexivity.
Qed.
Lemma has_char_weak l l' : Forall2 weak l l' -> has_char l = has_char l'.
Proof. induction 1 as [|i j l l' W F IH]; [reflexivity|]. unfold weak in W. destruct i, j; cbn in *; try discriminate; [reflexivity|exact IH]. Qed.
Lemma Forall2_firstn {A B} (R : A -> B -> Prop) n : forall l l', Forall2 R l l' -> Forall2 R (firstn n l) (firstn n l').
Proof. induction n as [|n IH]; intros l l' F; [constructor|]. destruct F; cbn; constructor; auto. Qed.
Lemma Forall2_len {A B} (R : A -> B -> Prop) l l' : Forall2 R l l' -> List.length l = List.length l'.
Proof. induction 1; cbn; auto. Qed.

Definition natural ic tl (r : re) : Prop := forall (P : sitem -> sitem -> Prop), (forall i j, P i j -> weak i j) ->
  forall s s' k k', ysr P s s' -> kr P k k' -> kr weak k k' -> r3r P (yrm ic tl r s k) (yrm ic tl r s' k').

Lemma r3r_weak (P : sitem -> sitem -> Prop) a b : (forall i j, P i j -> weak i j) -> r3r P a b -> r3r weak a b.
Proof. intros H. destruct a, b; cbn; auto. apply ysr_weak. exact H. Qed.

Lemma ystar_S ic tl g a k n s : ystar ic tl g a k (S n) s =
  let again := fun s' => if Nat.ltb (y_seen s) (y_seen s') then ystar ic tl g a k n s' else Dunno in
  if g then
    match is_set a, y_items s with
    | Some (neg, items), SR w d :: l =>
        if set_ok ic neg items d then
          match ystar ic tl g a k n (mky (after_run (y_prev s) d) l (y_caps s) (y_seen s)) with
          | Yes x => Yes x
          | No => match k (mky (after_run (y_prev s) d) (SC d d :: SR w d :: l) (y_caps s) (y_seen s)) with No => No | _ => Dunno end
          | Dunno => Dunno
          end
        else match yrm ic tl a s again with No => k s | x => x end
    | _, _ => match yrm ic tl a s again with No => k s | x => x end
    end
  else match k s with No => yrm ic tl a s again | x => x end.
Proof. reflexivity. Qed.
Lemma star_natural ic tl g a : natural ic tl a -> forall n (P : sitem -> sitem -> Prop), (forall i j, P i j -> weak i j) ->
  forall k k', kr P k k' -> kr weak k k' -> forall s s', ysr P s s' -> r3r P (ystar ic tl g a k n s) (ystar ic tl g a k' n s').
Proof.
  intros Na. induction n as [|n IH]; intros P HP k k' Hk Hw s s' Hs; [exact I|].
  assert (Ag : r3r P (yrm ic tl a s (fun s1 => if Nat.ltb (y_seen s) (y_seen s1) then ystar ic tl g a k n s1 else Dunno))
                     (yrm ic tl a s' (fun s1 => if Nat.ltb (y_seen s') (y_seen s1) then ystar ic tl g a k' n s1 else Dunno))).
  { apply Na; [exact HP|exact Hs| |].
    - intros x x' Hx. pose proof Hx as (_ & _ & _ & E). destruct Hs as (_ & _ & _ & E'). rewrite E, E'. destruct (Nat.ltb _ _); [|exact I]. apply IH; assumption.
    - intros x x' Hx. pose proof Hx as (_ & _ & _ & E). destruct Hs as (_ & _ & _ & E'). rewrite E, E'. destruct (Nat.ltb _ _); [|exact I]. apply IH; [intros i j W; exact W|assumption..]. }
  pose proof (Hk s s' Hs) as Kb. 
  assert (Plain : r3r P (match yrm ic tl a s (fun s1 => if Nat.ltb (y_seen s) (y_seen s1) then ystar ic tl g a k n s1 else Dunno) with No => k s | x => x end)
                        (match yrm ic tl a s' (fun s1 => if Nat.ltb (y_seen s') (y_seen s1) then ystar ic tl g a k' n s1 else Dunno) with No => k' s' | x => x end)).
  { destruct (yrm ic tl a s _), (yrm ic tl a s' _); cbn in Ag; try contradiction; auto. }
  rewrite !ystar_S. cbv zeta. destruct g.
  2:{ destruct (k s), (k' s'); cbn in Kb; try contradiction; auto. }
  destruct (is_set a) as [[neg items]|] eqn:Ea; [|exact Plain].
  pose proof Hs as (E1 & E2 & E3 & E4). destruct E2 as [|i j l l' Pij F] eqn:Q; [exact Plain|].
  pose proof (HP _ _ Pij) as W. unfold weak in W. destruct i as [c d|w d], j as [c' d'|w' d']; cbn in W; try discriminate; injection W as <-; [exact Plain|].
  destruct (set_ok ic neg items d); [|exact Plain].
  assert (R1 : r3r P (ystar ic tl true a k n (mky (after_run (y_prev s) d) l (y_caps s) (y_seen s))) (ystar ic tl true a k' n (mky (after_run (y_prev s') d) l' (y_caps s') (y_seen s')))).
  { apply IH; try assumption. split; [cbn; rewrite E1; reflexivity|]. split; [exact F|]. split; [exact E3|exact E4]. }
  assert (R2 : r3r weak (k (mky (after_run (y_prev s) d) (SC d d :: SR w d :: l) (y_caps s) (y_seen s))) (k' (mky (after_run (y_prev s') d) (SC d d :: SR w' d :: l') (y_caps s') (y_seen s')))).
  { apply Hw. split; [cbn; rewrite E1; reflexivity|]. split; [constructor; [reflexivity|]; constructor; [reflexivity|]; eapply weak_of; eauto|]. split; [|exact E4].
    cbn [y_caps]. clear - E3 HP. induction E3 as [|x y m m' [E Fx] C IHm]; constructor; [split; [exact E|eapply weak_of; eauto]|exact IHm]. }
  destruct (ystar ic tl true a k n _), (ystar ic tl true a k' n _); cbn in R1; try contradiction; auto.
  destruct (k (mky _ _ _ _)), (k' (mky _ _ _ _)); cbn in R2; try contradiction; exact I.
Qed.

Theorem yrm_natural ic tl r : natural ic tl r.
Proof.
  induction r as [|neg items|a IHa b IHb|a IHa b IHb|g a IHa|g a IHa|n a IHa| | |neg|neg a IHa]; intros P HP s s' k k' Hs Hk Hw; pose proof Hs as (E1 & E2 & E3 & E4).
  - apply Hk. exact Hs.
  - cbn [yrm]. pose proof (weak_of P HP _ _ E2) as Wl. pose proof (next_all_weak tl (fun c => negb (set_ok ic neg items c)) true _ _ Wl) as Nx. destruct s as [p l cs sn], s' as [p' l' cs' sn']. cbn [y_items y_prev y_caps y_seen] in *.
    destruct E2 as [|i j l l' Pij F]; [destruct (next_all _ _ _ _); exact I|]. pose proof (HP _ _ Pij) as W. unfold weak in W.
    destruct i as [c d|w d], j as [c' d'|w' d']; cbn [shape_of] in W; try discriminate; injection W as <-; [|rewrite Nx; clear Nx; match goal with |- context [next_all ?a ?b ?c ?e] => destruct (next_all a b c e) end; exact I].
    destruct (set_ok ic neg items d); [|exact I]. apply Hk. split; [reflexivity|]. split; [exact F|]. split; [exact E3|cbn; rewrite E4; reflexivity].
  - cbn [yrm]. apply IHa; [exact HP|exact Hs| |]; intros x x' Hx; [apply IHb; assumption|]. apply IHb; [intros i j W; exact W|exact Hx|exact Hw|exact Hw].
  - cbn [yrm]. specialize (IHa P HP s s' k k' Hs Hk Hw). specialize (IHb P HP s s' k k' Hs Hk Hw). destruct (yrm ic tl a s k), (yrm ic tl a s' k'); cbn in IHa; try contradiction; auto.
  - rewrite !yrm_star_eq. rewrite (Forall2_len _ _ _ E2). apply star_natural; assumption.
  - cbn [yrm]. specialize (IHa P HP s s' k k' Hs Hk Hw). specialize (Hk s s' Hs). destruct g.
    + destruct (yrm ic tl a s k), (yrm ic tl a s' k'); cbn in IHa; try contradiction; auto.
    + destruct (k s), (k' s'); cbn in Hk; try contradiction; auto.
  - cbn [yrm]. assert (G : forall Q : sitem -> sitem -> Prop, (forall i j, P i j -> Q i j) -> (forall i j, Q i j -> weak i j) -> kr Q k k' -> kr Q (fun s1 => k (mky (y_prev s1) (y_items s1) ((n, y_consumed s s1) :: y_caps s1) (y_seen s1)))
        (fun s1 => k' (mky (y_prev s1) (y_items s1) ((n, y_consumed s' s1) :: y_caps s1) (y_seen s1)))).
    { intros Q PQ HQ Hq x x' (X1 & X2 & X3 & X4). apply Hq. split; [exact X1|]. split; [exact X2|]. split; [|exact X4]. constructor; [|exact X3]. split; [reflexivity|]. cbn [snd]. unfold y_consumed.
      rewrite (Forall2_len _ _ _ E2), (Forall2_len _ _ _ X2). apply Forall2_firstn. clear - E2 PQ. induction E2; constructor; auto. }
    apply IHa; [exact HP|exact Hs|apply G; auto|apply G; auto].
  - cbn [yrm]. rewrite <- E1. destruct (y_prev s); [apply Hk; exact Hs|exact I|exact I].
  - cbn [yrm]. pose proof (weak_of P HP _ _ E2) as Wl. rewrite <- (has_char_weak _ _ Wl), <- (next_all_weak _ _ _ _ _ Wl). destruct (has_char _); [exact I|]. destruct (next_all _ _ _ _); [apply Hk; exact Hs|exact I].
  - cbn [yrm]. pose proof (weak_of P HP _ _ E2) as Wl. rewrite <- E1, <- !(next_all_weak _ _ _ _ _ Wl). specialize (Hk s s' Hs).
    destruct (y_prev s); [| |exact I]; destruct (next_all tl is_word false _); try (destruct (next_all tl (fun c => negb (is_word c)) true _); [|exact I]); match goal with |- context [xorb ?a ?b] => destruct (xorb a b) end; first [exact Hk|exact I].
  - cbn [yrm]. assert (A : r3r weak (yrm ic tl a s Yes) (yrm ic tl a s' Yes)). { apply IHa; [auto|eapply ysr_weak; eauto| |]; intros x x' Hx; exact Hx. }
    specialize (Hk s s' Hs). destruct (yrm ic tl a s Yes), (yrm ic tl a s' Yes); cbn in A; try contradiction; destruct neg; first [exact I|exact Hk].
Qed.

Theorem ysearch_natural ic tl r (P : sitem -> sitem -> Prop) : (forall i j, P i j -> weak i j) -> forall l l' p pos pos1 m c, Forall2 P l l' ->
  ysearch ic tl r p l pos = Some (pos1, m, c) -> exists m' c', ysearch ic tl r p l' pos = Some (pos1, m', c') /\ Forall2 P m m' /\ Forall2 (capr P) c c'.
Proof.
  intros HP l l' p pos pos1 m c F. revert p pos. 
  assert (Y : forall p l l', Forall2 P l l' -> r3r P (yrm ic tl r (mky p l [] 0) Yes) (yrm ic tl r (mky p l' [] 0) Yes)).
  { intros p x x' Fx. apply yrm_natural; [exact HP| | |]; [|intros y y' Hy; exact Hy..]. split; [reflexivity|]. split; [exact Fx|]. split; [constructor|reflexivity]. }
  induction F as [|i j l l' Pij F IH]; intros p pos H.
  - cbn [ysearch] in *. specialize (Y p [] [] (Forall2_nil _)). destruct (yrm ic tl r _ Yes) as [s| |]; [|discriminate..]. cbn [r3r] in Y. destruct Y as (_ & B & C & _). injection H as <- <- <-. exists [], (y_caps s).
    split; [reflexivity|]. split; [constructor|exact C].
  - cbn [ysearch] in *. specialize (Y p (i :: l) (j :: l') (Forall2_cons _ _ Pij F)). destruct (yrm ic tl r (mky p (i :: l) [] 0) Yes) as [s| |], (yrm ic tl r (mky p (j :: l') [] 0) Yes) as [s'| |]; cbn [r3r] in Y; try contradiction; [| |discriminate].
    + destruct Y as (_ & B & C & _). apply some_inj in H. 
      pose proof (f_equal (fun x => fst (fst x)) H) as H1. pose proof (f_equal (fun x => snd (fst x)) H) as H2. pose proof (f_equal snd H) as H3. cbv beta delta [fst snd] iota in H1, H2, H3. clear H IH. subst pos1 m c.
      eexists; eexists. split; [reflexivity|]. split; [|exact C].
      rewrite (Forall2_len _ _ _ B). replace (List.length (i :: l)) with (List.length (j :: l')) by (cbn [List.length]; rewrite (Forall2_len _ _ _ F); reflexivity). apply Forall2_firstn. constructor; assumption.
    + pose proof (HP _ _ Pij) as W. unfold weak in W. destruct i as [x d|w d], j as [x' d'|w' d']; cbn in W; try discriminate; injection W as <-. apply (IH _ _ H).
Qed.

(** ** Labelled items *)
Definition lab (n : nat) (x : bool * ascii) : sitem := if fst x then SC (ascii_of_nat n) (snd x) else SR [ascii_of_nat n] (snd x).
Fixpoint labels (n : nat) (l : list (bool * ascii)) : list sitem := match l with [] => [] | x :: l' => lab n x :: labels (S n) l' end.
Definition unlab (L : list sitem) (i : sitem) : sitem := match i with SC a _ | SR [a] _ => nth (nat_of_ascii a) L i | _ => i end.
Lemma unlab_labels L : List.length L <= 256 -> forall pre l, L = pre ++ l -> Forall2 (fun i j => weak i j /\ j = unlab L i) (labels (List.length pre) (map shape_of l)) l.
Proof.
  intros HL pre l. revert pre. induction l as [|i l IH]; intros pre E; [constructor|]. cbn [map labels]. constructor.
  - assert (N : nat_of_ascii (ascii_of_nat (List.length pre)) = List.length pre). { apply nat_ascii_embedding. rewrite E, app_length in HL. cbn in HL. lia. }
    split; [destruct i; reflexivity|]. unfold lab. destruct i as [c d|w d]; cbn [shape_of fst snd unlab]; rewrite N, E, app_nth2, Nat.sub_diag by lia; reflexivity.
  - specialize (IH (pre ++ [i])). rewrite app_length, Nat.add_comm in IH. cbn in IH. apply IH. rewrite <- app_assoc. exact E.
Qed.
(** cutting a list into pieces of given lengths *)
Fixpoint cut {A} (ls : list nat) (l : list A) : list (list A) := match ls with [] => [] | n :: ls' => firstn n l :: cut ls' (skipn n l) end.
Lemma cut_concat {A} (segs : list (list A)) : cut (map (@List.length A) segs) (List.concat segs) = segs.
Proof.
  induction segs as [|s segs IH]; [reflexivity|]. cbn. rewrite firstn_app, Nat.sub_diag, firstn_all. cbn. rewrite app_nil_r. f_equal.
  rewrite skipn_app, skipn_all, Nat.sub_diag. exact IH.
Qed.
(** the captures in terms of the pieces *)
Definition from_segs {A} (segs : list (list A)) (b : list (nat * list nat)) : list (nat * list A) :=
  map (fun x => (fst x, List.concat (map (fun i => nth i segs []) (snd x)))) b.
Definition sitem_eqb (i j : sitem) : bool :=
  match i, j with
  | SC c d, SC c' d' => Ascii.eqb c c' && Ascii.eqb d d'
  | SR [c] d, SR [c'] d' => Ascii.eqb c c' && Ascii.eqb d d'
  | _, _ => false
  end.
Fixpoint items_eqb (l l' : list sitem) : bool := match l, l' with [], [] => true | i :: l, j :: l' => sitem_eqb i j && items_eqb l l' | _, _ => false end.
Fixpoint caps_eqb (l l' : list (nat * list sitem)) : bool :=
  match l, l' with [], [] => true | i :: l, j :: l' => Nat.eqb (fst i) (fst j) && items_eqb (snd i) (snd j) && caps_eqb l l' | _, _ => false end.
Lemma items_eqb_eq l : forall l', items_eqb l l' = true -> l = l'.
Proof.
  induction l as [|i l IH]; intros [|j l'] H; try discriminate; [reflexivity|]. cbn in H. apply andb_prop in H as [E H]. rewrite (IH _ H). f_equal.
  destruct i as [c d|[|c [|? ?]] d], j as [c' d'|[|c' [|? ?]] d']; try discriminate; cbn in E; apply andb_prop in E as [A B]; apply Ascii.eqb_eq in A, B; subst; reflexivity.
Qed.
Lemma caps_eqb_eq l : forall l', caps_eqb l l' = true -> l = l'.
Proof.
  induction l as [|[n i] l IH]; intros [|[m j] l'] H; try discriminate; [reflexivity|]. cbn in H. apply andb_prop in H as [E H]. apply andb_prop in E as [A B]. rewrite (IH _ H). apply Nat.eqb_eq in A. apply items_eqb_eq in B. subst. reflexivity.
Qed.
(** the run on labelled items matches everything and captures as described *)
Definition runs_on (ic : bool) (tl : tail) (r : re) (x : list (list (bool * ascii)) * list (nat * list nat)) : bool :=
  let sh := List.concat (fst x) in
  let L := labels 0 sh in
  Nat.leb (List.length sh) 256 &&
  match ysearch ic tl r PStart L 0 with
  | Some (0, m, c) => items_eqb m L && caps_eqb c (from_segs (cut (map (@List.length _) (fst x)) L) (snd x))
  | _ => false
  end.
Lemma nth_firstn_map {A B} (f : A -> B) (segs : list (list A)) i : nth i (map (map f) segs) [] = map f (nth i segs []).
Proof. change (@nil B) with (map f []). apply map_nth. Qed.
Lemma cut_map {A B} (f : A -> B) ls : forall l, cut ls (map f l) = map (map f) (cut ls l).
Proof. induction ls as [|n ls IH]; intros l; [reflexivity|]. cbn. rewrite firstn_map, skipn_map, IH. reflexivity. Qed.
Lemma from_segs_map {A B} (f : A -> B) segs b : from_segs (map (map f) segs) b = map (fun x => (fst x, map f (snd x))) (from_segs segs b).
Proof.
  unfold from_segs. rewrite map_map. apply map_ext. intros [n is]. cbn [fst snd]. f_equal. rewrite concat_map, map_map. f_equal. apply map_ext. intros i. apply nth_firstn_map.
Qed.
Lemma unlab_eq L l l' : Forall2 (fun i j => weak i j /\ j = unlab L i) l l' -> l' = map (unlab L) l.
Proof. induction 1 as [|i j l l' [_ ->] F IH]; [reflexivity|]. cbn. rewrite IH at 1. reflexivity. Qed.

Theorem runs_on_ok ic tl r segs b : runs_on ic tl r (map (map shape_of) segs, b) = true ->
  ysearch ic tl r PStart (List.concat segs) 0 = Some (0, List.concat segs, from_segs segs b).
Proof.
  unfold runs_on. cbn [fst snd]. rewrite <- concat_map. intros H. apply andb_prop in H as [HL H]. apply Nat.leb_le in HL. rewrite map_length in HL.
  set (L := List.concat segs) in *. destruct (ysearch ic tl r PStart (labels 0 (map shape_of L)) 0) as [[[pos m] c]|] eqn:Y; [|discriminate]. destruct pos; [|discriminate]. apply andb_prop in H as [A B].
  apply items_eqb_eq in A. apply caps_eqb_eq in B.
  pose proof (unlab_labels L HL [] L eq_refl) as F. cbn [List.length] in F.
  destruct (ysearch_natural ic tl r _ (fun i j (H : weak i j /\ j = unlab L i) => proj1 H) _ _ _ _ _ _ _ F Y) as (m' & c' & Y' & Fm & Fc).
  rewrite Y'. rewrite A in Fm. rewrite (unlab_eq _ _ _ Fm). rewrite <- (unlab_eq _ _ _ F). f_equal. f_equal.
  assert (Ec : c' = map (fun x => (fst x, map (unlab L) (snd x))) c).
  { clear - Fc. induction Fc as [|[n x] [n' y] c c' [E Fx] Fc IH]; [reflexivity|]. cbn in *. subst n'. rewrite (unlab_eq _ _ _ Fx), IH at 1. reflexivity. }
  rewrite Ec, B, <- from_segs_map, <- cut_map, <- (unlab_eq _ _ _ F). f_equal. rewrite map_map. 
  replace (map (fun x => List.length (map shape_of x)) segs) with (map (@List.length sitem) segs) by (apply map_ext; intros; symmetry; apply map_length). apply cut_concat.
Qed.

(** ** Families of phrases *)
Definition family := list (list (list (bool * ascii)) * list (nat * list nat)).
(** every phrase of [f] followed by every phrase of [g]; later captures come first *)
Definition times (f g : family) : family := flat_map (fun x => map (fun y => (fst x ++ fst y, snd y ++ snd x)) g) f.
Lemma in_times (f g : family) x y : In x f -> In y g -> In (fst x ++ fst y, snd y ++ snd x) (times f g).
Proof. intros A B. apply in_flat_map. exists x. split; [exact A|]. apply in_map_iff. exists y. auto. Qed.
Theorem family_ok ic tl r (f : family) segs b : forallb (runs_on ic tl r) f = true -> In (map (map shape_of) segs, b) f ->
  ysearch ic tl r PStart (List.concat segs) 0 = Some (0, List.concat segs, from_segs segs b).
Proof. intros H I. rewrite forallb_forall in H. apply runs_on_ok. apply H. exact I. Qed.

(** membership by computation *)
Fixpoint list_eqb {A} (f : A -> A -> bool) (l l' : list A) : bool := match l, l' with [], [] => true | x :: l, y :: l' => f x y && list_eqb f l l' | _, _ => false end.
Lemma list_eqb_eq {A} (f : A -> A -> bool) : (forall x y, f x y = true -> x = y) -> forall l l', list_eqb f l l' = true -> l = l'.
Proof. intros H. induction l as [|x l IH]; intros [|y l'] E; try discriminate; [reflexivity|]. cbn in E. apply andb_prop in E as [A0 B]. rewrite (H _ _ A0), (IH _ B). reflexivity. Qed.
Definition shape_eqb (x y : bool * ascii) : bool := Bool.eqb (fst x) (fst y) && Ascii.eqb (snd x) (snd y).
Definition member_eqb (x y : list (list (bool * ascii)) * list (nat * list nat)) : bool :=
  list_eqb (list_eqb shape_eqb) (fst x) (fst y) && list_eqb (fun a b => Nat.eqb (fst a) (fst b) && list_eqb Nat.eqb (snd a) (snd b)) (snd x) (snd y).
Definition member (x : list (list (bool * ascii)) * list (nat * list nat)) (f : family) : bool := existsb (member_eqb x) f.
Lemma member_in x f : member x f = true -> In x f.
Proof.
  intros H. apply existsb_exists in H as (y & I & E). replace x with y; [exact I|]. destruct x as [a b], y as [a' b']. unfold member_eqb in E. cbn [fst snd] in E. apply andb_prop in E as [E1 E2]. f_equal.
  - symmetry. revert E1. apply list_eqb_eq. apply list_eqb_eq. intros [x1 x2] [y1 y2] E. unfold shape_eqb in E. cbn in E. apply andb_prop in E as [A B]. apply Bool.eqb_prop in A. apply Ascii.eqb_eq in B. subst. reflexivity.
  - symmetry. revert E2. apply list_eqb_eq. intros [x1 x2] [y1 y2] E. cbn in E. apply andb_prop in E as [A B]. apply Nat.eqb_eq in A. apply (list_eqb_eq Nat.eqb) in B; [subst; reflexivity|]. apply Nat.eqb_eq.
Qed.
(** pieces of a family *)
Definition sh_word (w : bytes) : list (bool * ascii) := map (fun c => (true, c)) w.
Definition sh_digits (n : nat) : list (bool * ascii) := repeat (true, "0"%char) n.
Definition sh_spaces : list (bool * ascii) := [(true, " "%char); (false, " "%char)].
