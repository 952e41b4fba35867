(** * Template: the words of an expression as a finite list of templates
    (fixed characters, single characters from a class, runs of characters from a class) *)
From Verif Require Import Base Regex RegexFacts.

Inductive piece := PLit (c : ascii) | PSet (neg : bool) (items : list citem) | PRun (neg : bool) (items : list citem).

Definition app_prod {A} (xs ys : list (list A)) : list (list A) := flat_map (fun x => map (fun y => x ++ y) ys) xs.
Fixpoint templates (ic : bool) (r : re) : option (list (list piece)) :=
  match r with
  | RSet neg items => Some [match filter (set_ok ic neg items) low_ascii with [c] => [PLit c] | _ => [PSet neg items] end]
  | RCat a b => match templates ic a, templates ic b with Some x, Some y => Some (app_prod x y) | _, _ => None end
  | RAlt a b => match templates ic a, templates ic b with Some x, Some y => Some (x ++ y) | _, _ => None end
  | RGrp _ a => templates ic a
  | ROpt _ a => match templates ic a with Some x => Some ([] :: x) | None => None end
  | RStar _ (RSet neg items) => Some [[PRun neg items]]
  | RStar _ _ => None
  | _ => Some [[]]
  end.

Fixpoint tm (ic : bool) (t : list piece) (w : bytes) : Prop :=
  match t with
  | [] => w = []
  | PLit c :: t' => exists v, w = c :: v /\ tm ic t' v
  | PSet neg items :: t' => exists c v, w = c :: v /\ set_ok ic neg items c = true /\ tm ic t' v
  | PRun neg items :: t' => exists u v, w = u ++ v /\ Forall (fun c => set_ok ic neg items c = true) u /\ tm ic t' v
  end.
Fixpoint any_tm (ic : bool) (ts : list (list piece)) (w : bytes) : Prop :=
  match ts with [] => False | t :: ts' => tm ic t w \/ any_tm ic ts' w end.

Lemma any_tm_in ic ts w : any_tm ic ts w <-> exists t, In t ts /\ tm ic t w.
Proof.
  induction ts as [|t ts IH]; cbn.
  - split; [contradiction|]. intros (t & [] & _).
  - rewrite IH. split.
    + intros [H|(t' & I & H)]; eauto.
    + intros (t' & [->|I] & H); eauto.
Qed.
Lemma tm_app ic t1 : forall t2 u v, tm ic t1 u -> tm ic t2 v -> tm ic (t1 ++ t2) (u ++ v).
Proof.
  induction t1 as [|p t1 IH]; intros t2 u v H1 H2; cbn [tm app] in *.
  - subst. exact H2.
  - destruct p.
    + destruct H1 as (x & -> & H). exists (x ++ v). split; [reflexivity|auto].
    + destruct H1 as (x & y & -> & S & H). exists x, (y ++ v). auto.
    + destruct H1 as (x & y & -> & S & H). exists x, (y ++ v). rewrite app_assoc. auto.
Qed.
Lemma in_app_prod {A} (x y : list A) xs ys : In x xs -> In y ys -> In (x ++ y) (app_prod xs ys).
Proof. intros Hx Hy. apply in_flat_map. exists x. split; [exact Hx|]. apply in_map. exact Hy. Qed.

Theorem templates_ok ic r : forall w ts, templates ic r = Some ts -> low w -> lang ic r w -> any_tm ic ts w.
Proof.
  induction r as [|neg items|a IHa b IHb|a IHa b IHb|g a IHa|g a IHa|n a IHa| | |neg|neg a IHa]; intros w ts; cbn [templates lang];
    try (intros H _ ->; apply some_inj in H; subst ts; left; reflexivity).
  - intros H Hl (c & -> & Hc). apply some_inj in H; subst ts. left.
    assert (I : In c (filter (set_ok ic neg items) low_ascii)).
    { apply filter_In. split; [|exact Hc]. apply filter_In. split; [apply all_ascii_in|]. inversion Hl; assumption. }
    destruct (filter (set_ok ic neg items) low_ascii) as [|x [|y l]]; [destruct I| |].
    + destruct I as [->|[]]. exists []. split; reflexivity.
    + exists c, []. cbn. auto.
  - intros H Hl (u & v & -> & La & Lb). destruct (templates ic a) as [x|]; [|discriminate]. destruct (templates ic b) as [y|]; [|discriminate].
    apply some_inj in H; subst ts. apply low_app in Hl as [Hu Hv].
    specialize (IHa _ _ eq_refl Hu La). specialize (IHb _ _ eq_refl Hv Lb). apply any_tm_in in IHa as (t1 & I1 & T1).
    apply any_tm_in in IHb as (t2 & I2 & T2). apply any_tm_in. exists (t1 ++ t2). split; [apply in_app_prod; assumption|].
    apply tm_app; assumption.
  - intros H Hl L. destruct (templates ic a) as [x|]; [|discriminate]. destruct (templates ic b) as [y|]; [|discriminate].
    apply some_inj in H; subst ts. apply any_tm_in.
    destruct L as [L|L]; [specialize (IHa _ _ eq_refl Hl L); apply any_tm_in in IHa as (t & I & T)
                         |specialize (IHb _ _ eq_refl Hl L); apply any_tm_in in IHb as (t & I & T)];
      exists t; (split; [apply in_or_app; auto|exact T]).
  - destruct a; try discriminate. intros H Hl (ws & -> & F). apply some_inj in H; subst ts. left.
    exists (List.concat ws), []. split; [symmetry; apply app_nil_r|]. split; [|reflexivity].
    clear - F. induction F as [|x l [_ (c & -> & Hc)] F IH]; cbn; constructor; auto.
  - intros H Hl L. destruct (templates ic a) as [x|]; [|discriminate]. apply some_inj in H; subst ts.
    destruct L as [->|L]; [left; reflexivity|]. right. apply IHa; auto.
  - apply IHa.
Qed.

(** unfold a template disjunction completely *)
Ltac tm_crack1 :=
  lazymatch goal with
  | |- ex _ -> _ => let x := fresh "x" in let Q := fresh in intros [x Q]; revert Q; tm_crack1
  | |- _ = _ /\ _ -> _ => let E := fresh "E" in let Q := fresh in intros [E Q]; revert Q; subst; tm_crack1
  | |- _ /\ _ -> _ => let R := fresh "R" in let Q := fresh in intros [R Q]; revert Q; tm_crack1
  | |- _ = [] -> _ => let E := fresh "E" in intros E; subst
  end.
Ltac tm_cases :=
  lazymatch goal with
  | |- False -> _ => let F := fresh in intros F; destruct F
  | |- _ \/ _ -> _ => let H := fresh in intros [H|H]; revert H; [tm_crack1|tm_cases]
  end.
(** [word_cases L]: L : lang true r w with [low w] provable by assumption *)
Ltac word_cases L :=
  lazymatch type of L with
  | lang ?ic ?r ?w =>
      let ts := eval vm_compute in (templates ic r) in
      lazymatch ts with
      | Some ?l =>
          let T := fresh "T" in
          assert (T : templates ic r = Some l) by (vm_compute; reflexivity);
          generalize (templates_ok ic r w l T ltac:(assumption) L); clear T; cbn [any_tm tm]; tm_cases
      end
  end.

(** ** The converse: words built from a template belong to the expression *)
Lemma tm_app_inv ic t1 : forall t2 w, tm ic (t1 ++ t2) w -> exists u v, w = u ++ v /\ tm ic t1 u /\ tm ic t2 v.
Proof.
  induction t1 as [|p t1 IH]; intros t2 w H; cbn [tm app] in *.
  - exists [], w. auto.
  - destruct p.
    + destruct H as (x & -> & H). apply IH in H as (u & v & -> & A & B). exists (c :: u), v. split; [reflexivity|]. split; [exists u; auto|exact B].
    + destruct H as (x & y & -> & S & H). apply IH in H as (u & v & -> & A & B). exists (x :: u), v. split; [reflexivity|]. split; [exists x, u; auto|exact B].
    + destruct H as (x & y & -> & S & H). apply IH in H as (u & v & -> & A & B). exists (x ++ u), v. split; [apply app_assoc|]. split; [exists x, u; auto|exact B].
Qed.
Lemma in_app_prod_inv {A} (t : list A) xs ys : In t (app_prod xs ys) -> exists x y, t = x ++ y /\ In x xs /\ In y ys.
Proof.
  intros H. apply in_flat_map in H as (x & Hx & H). apply in_map_iff in H as (y & <- & Hy). eauto.
Qed.
Theorem templates_complete ic r : forall w ts, templates ic r = Some ts -> any_tm ic ts w -> lang ic r w.
Proof.
  induction r as [|neg items|a IHa b IHb|a IHa b IHb|g a IHa|g a IHa|n a IHa| | |neg|neg a IHa]; intros w ts; cbn [templates lang];
    try (intros H; apply some_inj in H; subst ts; intros [H|[]]; exact H).
  - intros H; apply some_inj in H; subst ts. intros [H|[]].
    destruct (filter (set_ok ic neg items) low_ascii) as [|x [|y l]] eqn:F.
    + destruct H as (c & v & -> & S & ->). eauto.
    + destruct H as (v & -> & ->). exists x. split; [reflexivity|]. assert (I : In x [x]) by (left; reflexivity). rewrite <- F in I.
      apply filter_In in I. apply I.
    + destruct H as (c & v & -> & S & ->). eauto.
  - intros H T. destruct (templates ic a) as [x|]; [|discriminate]. destruct (templates ic b) as [y|]; [|discriminate].
    apply some_inj in H; subst ts. apply any_tm_in in T as (t & I & T). apply in_app_prod_inv in I as (t1 & t2 & -> & I1 & I2).
    apply tm_app_inv in T as (u & v & -> & T1 & T2). exists u, v. split; [reflexivity|].
    split; [apply (IHa _ x)|apply (IHb _ y)]; auto; apply any_tm_in; eauto.
  - intros H T. destruct (templates ic a) as [x|]; [|discriminate]. destruct (templates ic b) as [y|]; [|discriminate].
    apply some_inj in H; subst ts. apply any_tm_in in T as (t & I & T). apply in_app_or in I as [I|I]; [left; apply (IHa _ x)|right; apply (IHb _ y)]; auto;
      apply any_tm_in; eauto.
  - destruct a; try discriminate. intros H; apply some_inj in H; subst ts. intros [(u & v & -> & F & ->)|[]].
    rewrite app_nil_r. exists (map (fun c => [c]) u). split.
    + clear. induction u as [|c u IH]; cbn; congruence.
    + apply Forall_forall. intros x I. apply in_map_iff in I as (c & <- & I). split; [discriminate|]. exists c. split; [reflexivity|].
      rewrite Forall_forall in F. auto.
  - intros H T. destruct (templates ic a) as [x|]; [|discriminate]. apply some_inj in H; subst ts.
    destruct T as [->|T]; [left; reflexivity|right]. apply (IHa _ x); auto.
  - apply IHa.
Qed.

(** [in_lang]: goal [lang true r w]; runs of [w] must have their [Forall (set_ok ...)] as hypotheses *)
Ltac tm_solve :=
  lazymatch goal with
  | |- exists v, _ = _ :: v /\ _ => eexists; split; [reflexivity|]; tm_solve
  | |- exists c v, _ = _ :: v /\ _ => eexists _, _; split; [reflexivity|]; split; [first [assumption|vm_compute; reflexivity]|]; tm_solve
  | |- exists u v, _ = _ ++ v /\ _ => 
      first [ eexists _, _; split; [reflexivity|]; split; [assumption|]; tm_solve
            | eexists _, []; split; [symmetry; apply app_nil_r|]; split; [assumption|]; tm_solve
            | exists []; eexists; split; [reflexivity|]; split; [constructor|]; tm_solve ]
  | |- _ = [] => reflexivity
  end.
Ltac any_solve := first [left; tm_solve | right; any_solve].
Ltac in_lang :=
  lazymatch goal with
  | |- lang ?ic ?r ?w => 
      let ts := eval vm_compute in (templates ic r) in
      lazymatch ts with
      | Some ?l => apply (templates_complete ic r w l); [vm_compute; reflexivity|]; cbn [any_tm tm]; any_solve
      end
  end.
