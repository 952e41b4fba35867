(** * OverlapFacts: the overlap refiner, for every list of results *)
From Verif Require Import Base Regex RegexParse Calendar Components Utils Execute Spec View ResultFacts Refiners.
From Coq Require Import ZifyBool Sorting.Sorted.
Open Scope Z_scope.

(** ** vocabulary *)
(** the result occupies [index, index + length) of the text *)
Definition starts (r : result) : Z := getIndex r.
Definition stops (r : result) : Z := getIndex r + textLength r.
(** [b] starts at or after the place where [a] stops *)
Definition before (a b : result) : Prop := stops a <= starts b.
(** [b], which does not start before [a], starts inside [a] *)
Definition overlap (a b : result) : Prop :=
  (starts a <= starts b < stops a) \/ (starts b <= starts a < stops b).
Definition by_index : list result -> Prop := Sorted (fun a b => starts a <= starts b).
Definition nonempty_results (l : list result) : Prop := Forall (fun r => isEmpty r = false) l.

(** sub-list, same order *)
Inductive sub {A} : list A -> list A -> Prop :=
| sub_nil : sub [] []
| sub_keep x a b : sub a b -> sub (x :: a) (x :: b)
| sub_drop x a b : sub a b -> sub a (x :: b).

Lemma sub_refl {A} (l : list A) : sub l l.
Proof. induction l; constructor; assumption. Qed.
Lemma sub_in {A} (a b : list A) x : sub a b -> In x a -> In x b.
Proof. induction 1; cbn; [tauto| |]; intuition. Qed.
Lemma sub_nil_l {A} (l : list A) : sub [] l.
Proof. induction l; constructor; assumption. Qed.
Lemma sub_length {A} (a b : list A) : sub a b -> (List.length a <= List.length b)%nat.
Proof. induction 1; cbn; lia. Qed.

Lemma textLength_nonneg r : 0 <= textLength r.
Proof. unfold textLength. lia. Qed.

Lemma overlap_loop_sub rs : forall prev, res_copy prev = prev -> Forall (fun r => res_copy r = r) rs ->
  sub (overlap_loop prev rs) (prev :: rs).
Proof.
  induction rs as [|tmp rs IH]; intros prev Hp F; cbn [overlap_loop].
  - destruct (isEmpty prev); [apply sub_nil_l|apply sub_refl].
  - inversion F; subst. unfold res_assign. rewrite Hp, H1. destruct (getIndex tmp <? res_stop prev).
    + destruct (textLength prev <? textLength tmp).
      * apply sub_drop. apply IH; assumption.
      * specialize (IH prev Hp H2). inversion IH; subst; [constructor; constructor; assumption|]. constructor. constructor. assumption.
    + apply sub_keep. apply IH; assumption.
Qed.

Lemma by_index_all a l : by_index (a :: l) -> Forall (fun b => starts a <= starts b) l.
Proof. intros S. apply Sorted_StronglySorted in S; [|intros x y z; lia]. inversion S; subst. assumption. Qed.
Lemma by_index_tl a l : by_index (a :: l) -> by_index l.
Proof. intros S. inversion S; assumption. Qed.
Lemma by_index_cons a l : by_index l -> Forall (fun b => starts a <= starts b) l -> by_index (a :: l).
Proof. intros S F. constructor; [exact S|]. destruct l; constructor. inversion F; assumption. Qed.

Definition apart (l : list result) : Prop := StronglySorted before l.

Lemma overlap_loop_apart rs : forall prev, by_index (prev :: rs) ->
  res_copy prev = prev -> Forall (fun r => res_copy r = r) rs ->
  apart (overlap_loop prev rs) /\ Forall (fun x => starts prev <= starts x) (overlap_loop prev rs).
Proof.
  induction rs as [|tmp rs IH]; intros prev S Hp F; cbn [overlap_loop].
  - destruct (isEmpty prev); (split; [repeat constructor|constructor]). lia. constructor.
  - inversion F; subst. unfold res_assign. rewrite Hp, H1.
    pose proof (by_index_all _ _ S) as A. inversion A as [|? ? A1 A2]; subst.
    pose proof (by_index_tl _ _ S) as St.
    destruct (IH tmp St H1 H2) as [P1 P2].
    destruct (getIndex tmp <? res_stop prev) eqn:O.
    + destruct (textLength prev <? textLength tmp).
      * split; [exact P1|]. eapply Forall_impl; [|exact P2]. cbn. intros; lia.
      * apply IH; [|assumption|assumption]. apply by_index_cons; [eapply by_index_tl; exact St|exact A2].
    + assert (B : Forall (before prev) (overlap_loop tmp rs)).
      { eapply Forall_impl; [|exact P2]. cbn. unfold before, stops, starts, res_stop in *. intros; lia. }
      split; [constructor; assumption|]. constructor; [lia|]. eapply Forall_impl; [|exact P2]. cbn. intros; lia.
Qed.

Lemma overlap_loop_keeps rs : forall prev r, by_index (prev :: rs) ->
  res_copy prev = prev -> Forall (fun r => res_copy r = r) rs -> isEmpty r = false ->
  (exists a b, prev :: rs = a ++ r :: b /\ Forall (fun x => before x r) a /\ Forall (before r) b) ->
  In r (overlap_loop prev rs).
Proof.
  induction rs as [|tmp rs IH]; intros prev r S Hp F Ne (a & b & E & Ba & Bb); cbn [overlap_loop].
  - destruct a as [|x [|y a]]; cbn in E; try discriminate. injection E as -> _. rewrite Ne. left; reflexivity.
  - inversion F; subst. unfold res_assign. rewrite Hp, H1.
    pose proof (by_index_tl _ _ S) as St. pose proof (by_index_all _ _ S) as A. inversion A as [|? ? A1 A2]; subst.
    destruct a as [|x a]; cbn in E.
    + injection E as -> <-. inversion Bb; subst. unfold before, stops, starts in H3. unfold res_stop.
      destruct (getIndex tmp <? getIndex r + textLength r) eqn:O; [lia|]. left; reflexivity.
    + injection E as -> E. inversion Ba; subst.
      destruct (getIndex tmp <? res_stop x) eqn:O.
      * destruct (textLength x <? textLength tmp).
        -- apply IH; auto. exists a, b. auto.
        -- apply IH; auto; [apply by_index_cons; [eapply by_index_tl; exact St|exact A2]|].
           destruct a as [|y a]; cbn in E.
           ++ injection E as -> <-. unfold before, stops, starts, res_stop in *. lia.
           ++ injection E as -> ->. exists (x :: a), b. inversion H4; subst. repeat split; auto.
      * right. apply IH; auto. exists a, b. auto.
Qed.

Lemma apart_loop rs : forall prev, apart (prev :: rs) -> nonempty_results (prev :: rs) ->
  res_copy prev = prev -> Forall (fun r => res_copy r = r) rs -> overlap_loop prev rs = prev :: rs.
Proof.
  induction rs as [|tmp rs IH]; intros prev A N Hp F; cbn [overlap_loop]; inversion N; subst.
  - rewrite H1. reflexivity.
  - inversion F; subst. unfold res_assign. rewrite Hp, H3. inversion A as [|? ? A1 A2]; subst. inversion A2 as [|? ? A3 A4]; subst.
    unfold before, stops, starts in A3. unfold res_stop. destruct (getIndex tmp <? getIndex prev + textLength prev) eqn:O; [lia|].
    f_equal. apply IH; auto.
Qed.

Lemma copies_fixed l : Forall (fun r => res_copy r = r) (map res_copy l).
Proof. apply Forall_forall. intros r H. apply in_map_iff in H as (x & <- & _). apply res_copy_idem. Qed.
Lemma isEmpty_copy r : isEmpty (res_copy r) = isEmpty r.
Proof. reflexivity. Qed.
Lemma by_index_map l : by_index l -> by_index (map res_copy l).
Proof.
  induction 1 as [|a l S IH H]; cbn; constructor; [exact IH|]. inversion H; subst; cbn; constructor. exact H0.
Qed.
Lemma nonempty_map l : nonempty_results l -> nonempty_results (map res_copy l).
Proof. intros H. apply Forall_forall. intros r I. apply in_map_iff in I as (x & <- & I). rewrite isEmpty_copy. eapply Forall_forall in H; eauto. Qed.

(** [overlap_refine] as one loop (the one-element shortcut agrees unless that element is empty) *)
Lemma refine_loop r rs : isEmpty r = false -> overlap_refine (r :: rs) = overlap_loop (res_copy r) (map res_copy rs).
Proof.
  intros N. unfold overlap_refine. cbn [map]. destruct (map res_copy rs) eqn:E.
  - cbn. rewrite isEmpty_copy, N. reflexivity.
  - rewrite res_copy_idem. reflexivity.
Qed.

(** ** what is dropped *)
(** [b] overlaps [a] and is at least as long *)
Definition covers (b a : result) : Prop := overlap a b /\ textLength a <= textLength b.
Inductive chain (ins : list result) : result -> result -> Prop :=
| chain_here r : chain ins r r
| chain_step r s t : In s ins -> covers s r -> chain ins s t -> chain ins r t.
Lemma chain_mono ins ins' r t : (forall x, In x ins -> In x ins') -> chain ins r t -> chain ins' r t.
Proof. intros H. induction 1; econstructor; eauto. Qed.

Lemma overlap_loop_chain rs : forall prev, by_index (prev :: rs) ->
  res_copy prev = prev -> Forall (fun r => res_copy r = r) rs -> nonempty_results (prev :: rs) ->
  forall x, In x (prev :: rs) -> exists k, In k (overlap_loop prev rs) /\ chain (prev :: rs) x k.
Proof.
  induction rs as [|tmp rs IH]; intros prev S Hp F N x I; cbn [overlap_loop]; inversion N; subst.
  - rewrite H1. destruct I as [<-|[]]. exists prev. split; [left; reflexivity|constructor].
  - inversion F; subst. unfold res_assign. rewrite Hp, H3.
    pose proof (by_index_tl _ _ S) as St. pose proof (by_index_all _ _ S) as A. inversion A as [|? ? A1 A2]; subst.
    assert (Sp : by_index (prev :: rs)) by (apply by_index_cons; [eapply by_index_tl; exact St|exact A2]).
    assert (Np : nonempty_results (prev :: rs)) by (constructor; [exact H1|inversion H2; assumption]).
    assert (M1 : forall a k, chain (tmp :: rs) a k -> chain (prev :: tmp :: rs) a k).
    { intros a k. apply chain_mono. intros y Hy. right; exact Hy. }
    assert (M2 : forall a k, chain (prev :: rs) a k -> chain (prev :: tmp :: rs) a k).
    { intros a k. apply chain_mono. intros y [<-|Hy]; [left; reflexivity|right; right; exact Hy]. }
    destruct (getIndex tmp <? res_stop prev) eqn:O.
    + destruct (textLength prev <? textLength tmp) eqn:L.
      * destruct I as [<-|I].
        -- destruct (IH tmp St H3 H4 H2 tmp (or_introl eq_refl)) as (k & Ik & C). exists k. split; [exact Ik|].
           eapply chain_step; [right; left; reflexivity| |apply M1; exact C]. split; [|lia]. left. unfold stops, starts, res_stop in *. lia.
        -- destruct (IH tmp St H3 H4 H2 x I) as (k & Ik & C). eauto.
      * destruct I as [<-|[<-|I]].
        -- destruct (IH prev Sp Hp H4 Np prev (or_introl eq_refl)) as (k & Ik & C). eauto.
        -- destruct (IH prev Sp Hp H4 Np prev (or_introl eq_refl)) as (k & Ik & C). exists k. split; [exact Ik|].
           eapply chain_step; [left; reflexivity| |apply M2; exact C]. split; [|lia]. right. unfold stops, starts, res_stop in *. lia.
        -- destruct (IH prev Sp Hp H4 Np x (or_intror I)) as (k & Ik & C). eauto.
    + destruct I as [<-|I].
      * exists prev. split; [left; reflexivity|constructor].
      * destruct (IH tmp St H3 H4 H2 x I) as (k & Ik & C). exists k. split; [right; exact Ik|auto].
Qed.
