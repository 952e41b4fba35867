(** * ShapeFacts: which groups a match can have captured *)
From Verif Require Import Base Regex RegexParse View ParserSpec RegexFacts MatchFacts.
From Coq Require Import ZifyBool ZifyNat ZifyN.

(** the sequences of group numbers a run can capture, most recent first *)
Fixpoint shapes (r : re) : option (list (list nat)) :=
  match r with
  | RCat a b => match shapes a, shapes b with Some x, Some y => Some (flat_map (fun v => map (fun u => v ++ u) x) y) | _, _ => None end
  | RAlt a b => match shapes a, shapes b with Some x, Some y => Some (x ++ y) | _, _ => None end
  | RStar _ a => match groups a with [] => Some [[]] | _ => None end
  | ROpt _ a => match shapes a with Some x => Some ([] :: x) | None => None end
  | RGrp n a => match shapes a with Some x => Some (map (cons n) x) | None => None end
  | _ => Some [[]]
  end.
Lemma shapes_ok ic r : forall s s' L, mt ic r s s' -> shapes r = Some L -> exists cs, s_caps s' = cs ++ s_caps s /\ In (map fst cs) L.
Proof.
  induction r as [|neg items|a IHa b IHb|a IHa b IHb|g a IHa|g a IHa|n a IHa| | |neg|neg a IHa]; intros s s' L; cbn [mt shapes]; intros H E.
  - subst s'. injection E as <-. exists []. cbn. auto.
  - destruct H as (c & t & _ & _ & ->). injection E as <-. exists []. cbn. auto.
  - destruct H as (s1 & Ma & Mb). destruct (shapes a) as [x|] eqn:Ea; [|discriminate]. destruct (shapes b) as [y|] eqn:Eb; [|discriminate]. injection E as <-.
    destruct (IHa _ _ _ Ma eq_refl) as (c1 & E1 & I1). destruct (IHb _ _ _ Mb eq_refl) as (c2 & E2 & I2).
    exists (c2 ++ c1). rewrite E2, E1, app_assoc, map_app. split; [reflexivity|]. apply in_flat_map. exists (map fst c2). split; [exact I2|].
    apply in_map_iff. exists (map fst c1). auto.
  - destruct (shapes a) as [x|] eqn:Ea; [|discriminate]. destruct (shapes b) as [y|] eqn:Eb; [|discriminate]. injection E as <-.
    destruct H as [H|H]; [destruct (IHa _ _ _ H eq_refl) as (c & E & I')|destruct (IHb _ _ _ H eq_refl) as (c & E & I')]; exists c; (split; [exact E|]); apply in_or_app; auto.
  - destruct (groups a) eqn:G; [|discriminate]. injection E as <-.
    pose proof (mt_word ic (RStar g a) s s' H) as (w & cs & _ & _ & _ & Ec & F). cbn [groups] in F. rewrite G in F. destruct cs as [|c cs]; [exists []; cbn; auto|].
    inversion F as [|? ? (? & [] & _)].
  - destruct (shapes a) as [x|]; [|discriminate]. injection E as <-. destruct H as [->|H]; [exists []; cbn; auto|].
    destruct (IHa _ _ _ H eq_refl) as (c & E & I'). exists c. split; [exact E|right; exact I'].
  - destruct (shapes a) as [x|]; [|discriminate]. injection E as <-. destruct H as (s1 & H & ->). destruct (IHa _ _ _ H eq_refl) as (c & E & I').
    exists ((n, consumed s s1) :: c). cbn [Regex.s_caps map fst app]. rewrite E. split; [reflexivity|]. apply in_map. exact I'.
  - destruct H as [_ ->]. injection E as <-. exists []. cbn. auto.
  - destruct H as [_ ->]. injection E as <-. exists []. cbn. auto.
  - destruct H as [_ ->]. injection E as <-. exists []. cbn. auto.
  - destruct H as [-> _]. injection E as <-. exists []. cbn. auto.
Qed.

Lemma search_caps ic r t m : search ic r t = Some m -> Forall (cap_ok ic (groups r)) (m_caps m).
Proof.
  intros S. shape S. destruct (mt_word _ _ _ _ M) as (w & cs & _ & _ & _ & Ec & F). rewrite C, Ec. cbn [Regex.s_caps]. rewrite app_nil_r. exact F.
Qed.
Lemma search_names ic r t m L : search ic r t = Some m -> shapes r = Some L -> In (map fst (m_caps m)) L.
Proof.
  intros S E. shape S. destruct (shapes_ok _ _ _ _ _ M E) as (cs & Ec & I'). rewrite C, Ec. cbn [Regex.s_caps]. rewrite app_nil_r. exact I'.
Qed.
Definition mem (n : nat) (l : list nat) : bool := existsb (Nat.eqb n) l.
(** a group that was captured and cannot be empty is not empty; one that was not captured is *)
Definition nonempty_group (n : nat) (r : re) : bool := forallb (fun x => negb (Nat.eqb n (fst x)) || (1 <=? min_len (snd x))%nat) (groups r).
Lemma grp_present ic r t m n : search ic r t = Some m -> n <> 0%nat -> nonempty_group n r = true -> is_nil (grp m n) = negb (mem n (map fst (m_caps m))).
Proof.
  intros Sr Hn N. pose proof (search_caps _ _ _ _ Sr) as F. destruct n as [|n]; [congruence|]. cbn [grp]. clear Hn.
  induction F as [|[k b] l (a & Ia & La) F IH]; cbn [cap_lookup map fst mem existsb]; [reflexivity|].
  destruct (Nat.eqb (S n) k) eqn:E; [|exact IH]. cbn [orb negb]. apply Nat.eqb_eq in E. cbn [fst snd] in *. subst k.
  unfold nonempty_group in N. rewrite forallb_forall in N. specialize (N _ Ia). cbn [fst snd] in N. rewrite Nat.eqb_refl in N. cbn [negb orb] in N.
  apply Nat.leb_le in N. pose proof (min_len_ok _ _ _ La). destruct b; [cbn in *; lia|reflexivity].
Qed.
(** a claim about which groups are present, checked on every shape *)
Definition all_shapes (f : list nat -> bool) (r : re) : bool := match shapes r with Some L => forallb f L | None => false end.
Lemma shapes_check ic r t m (f : list nat -> bool) : all_shapes f r = true -> search ic r t = Some m -> f (map fst (m_caps m)) = true.
Proof. unfold all_shapes. intros H S. destruct (shapes r) as [L|] eqn:E; [|discriminate]. rewrite forallb_forall in H. apply H. eapply search_names; eauto. Qed.

(** every group of the given number holds characters of one class and has bounded length *)
Definition group_within (n len : nat) (f : ascii -> bool) (r : re) : bool :=
  forallb (fun x => negb (Nat.eqb n (fst x)) || (only true f (snd x) && match max_len (snd x) with Some k => Nat.leb k len | None => false end)) (groups r).
Lemma grp_within r t m n len f : search true r t = Some m -> n <> 0%nat -> group_within n len f r = true ->
  Forall (fun c => f c = true) (grp m n) /\ (List.length (grp m n) <= len)%nat.
Proof.
  intros Sr Hn N. destruct (grp_ok _ _ _ n (search_caps _ _ _ _ Sr) Hn) as [->|(a & Ia & La)]; [split; [constructor|cbn; lia]|].
  unfold group_within in N. rewrite forallb_forall in N. specialize (N _ Ia). cbn [fst snd] in N. rewrite Nat.eqb_refl in N. cbn [negb orb] in N.
  apply andb_prop in N as [O M]. destruct (max_len a) as [k|] eqn:E; [|discriminate]. apply Nat.leb_le in M. split; [exact (only_ok _ _ _ _ O La)|].
  pose proof (max_len_ok _ _ _ _ La E). lia.
Qed.
