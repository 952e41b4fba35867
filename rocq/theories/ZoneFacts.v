(** * ZoneFacts: the time-zone refiner, for every list of results and every text *)
From Verif Require Import Base Regex RegexParse Calendar Components Utils Execute Spec View ParserSpec RegexFacts Template ResultFacts ParserRe MatchFacts Refiners.
From Coq Require Import ZifyBool ZifyNat.
Open Scope Z_scope.

(** ** vocabulary *)
Definition is_letter (c : ascii) : bool := is_upper c || is_lower c.
(** the rest of the text is an abbreviation, possibly in parentheses, and nothing else *)
Definition zone_tail (tail abbr : bytes) : Prop :=
  exists sp lp rp, tail = sp ++ lp ++ abbr ++ rp /\ blanks sp /\ (lp = [] \/ lp = bs "(") /\ (rp = [] \/ rp = bs ")") /\
  (2 <= List.length abbr <= 4)%nat /\ Forall (fun c => is_letter c = true) abbr.
(** the published table *)
Definition zone_minutes (abbr : bytes) (k : Z) : Prop := In (to_upper abbr, k) TIMEZONES.

Lemma tbl_find_in w k t : tbl_find w t = Some k -> In (w, k) t.
Proof.
  induction t as [|[a v] t IH]; cbn; [discriminate|]. destruct (beq w a) eqn:E; intros H.
  - injection H as ->. left. f_equal. clear -E. revert a E. induction w as [|x w IH]; intros [|y a]; cbn; try discriminate; [reflexivity|].
    intros H. apply andb_prop in H as [H1 H2]. apply Ascii.eqb_eq in H1. subst. f_equal. auto.
  - right. auto.
Qed.
Lemma beq_refl w : beq w w = true.
Proof. induction w as [|x w IH]; [reflexivity|]. cbn. rewrite Ascii.eqb_refl. exact IH. Qed.
Lemma beq_eq a b : beq a b = true <-> a = b.
Proof.
  split; [|intros ->; apply beq_refl]. revert b. induction a as [|x a IH]; intros [|y b]; cbn; try discriminate; [reflexivity|].
  intros H. apply andb_prop in H as [H1 H2]. apply Ascii.eqb_eq in H1. subst. f_equal. auto.
Qed.
Fixpoint nodup_keys (t : list (bytes * Z)) : bool :=
  match t with [] => true | (a, _) :: t' => negb (existsb (fun p => beq a (fst p)) t') && nodup_keys t' end.
Lemma in_tbl_find w k t : nodup_keys t = true -> In (w, k) t -> tbl_find w t = Some k.
Proof.
  induction t as [|[a v] t IH]; cbn; [tauto|]. intros N [E|I]; apply andb_prop in N as [N1 N2].
  - injection E as -> ->. rewrite beq_refl. reflexivity.
  - destruct (beq w a) eqn:E; [|auto]. apply beq_eq in E. subst a. exfalso. apply negb_true_iff in N1.
    assert (existsb (fun p => beq w (fst p)) t = true); [|congruence]. apply existsb_exists. exists (w, k). split; [exact I|apply beq_refl].
Qed.
Lemma zones_nodup : nodup_keys TIMEZONES = true.
Proof. vm_compute. reflexivity. Qed.
Lemma zone_find abbr k : tbl_find (to_upper abbr) TIMEZONES = Some k <-> zone_minutes abbr k.
Proof. split; [apply tbl_find_in|apply in_tbl_find, zones_nodup]. Qed.

(** ** the pattern *)
Definition tz_abbr : re := Eval vm_compute in pat "[A-Z]{2,4}".
Definition tz_lp : re := Eval vm_compute in pat "\(?".
Definition tz_rp : re := Eval vm_compute in pat "\)?".
Definition tz_look : re := Eval vm_compute in pat "\W|$".
Definition tz_re : re := RCat RBol (RCat SPs (RCat tz_lp (RCat (RGrp 1 tz_abbr) (RCat tz_rp (RLook false tz_look))))).
Lemma tz_compile : compile tz_pattern = Some tz_re.
Proof. vm_compute. reflexivity. Qed.

Lemma letter_set c : set_ok true false [CRange "A" "Z"] c = is_letter c.
Proof.
  apply eqb_prop.
  apply (forall_ascii (fun c => Bool.eqb (set_ok true false [CRange "A" "Z"] c) (is_letter c))). vm_compute. reflexivity.
Qed.
Lemma abbr_inv w : lang true tz_abbr w -> (2 <= List.length w <= 4)%nat /\ Forall (fun c => is_letter c = true) w.
Proof.
  intros L. split.
  - split; [exact (min_len_ok _ _ _ L)|]. exact (max_len_ok true tz_abbr w 4%nat L eq_refl).
  - eapply (only_ok true is_letter); [|exact L]. vm_compute. reflexivity.
Qed.
Lemma abbr_intro w : (2 <= List.length w <= 4)%nat -> Forall (fun c => is_letter c = true) w -> lang true tz_abbr w.
Proof.
  intros L F. destruct w as [|a [|b w]]; cbn in L; try lia. inversion F as [|? ? Ha F1]; subst. inversion F1 as [|? ? Hb F2]; subst.
  rewrite <- letter_set in Ha, Hb. exists [a], (b :: w). split; [reflexivity|]. split; [exists a; auto|].
  exists [b], w. split; [reflexivity|]. split; [exists b; auto|].
  destruct w as [|x w]; [left; reflexivity|right]. inversion F2 as [|? ? Hx F3]; subst. rewrite <- letter_set in Hx.
  exists [x], w. split; [reflexivity|]. split; [exists x; auto|].
  destruct w as [|y w]; [left; reflexivity|right]. inversion F3 as [|? ? Hy F4]; subst. rewrite <- letter_set in Hy.
  destruct w; [|cbn in L; lia]. exists y. auto.
Qed.
Lemma lp_inv w : lang true tz_lp w -> w = [] \/ w = bs "(".
Proof.
  intros [->|(c & -> & H)]; [left; reflexivity|right]. cut (Ascii.eqb c "(" = true); [intros E; apply Ascii.eqb_eq in E; subst; reflexivity|].
  revert H. pose proof (forall_ascii (fun c => implb (set_ok true false [CChar "("] c) (Ascii.eqb c "("))) as P.
  specialize (P ltac:(vm_compute; reflexivity) c). cbn beta in P. intros H. rewrite H in P. exact P.
Qed.
Lemma rp_inv w : lang true tz_rp w -> w = [] \/ w = bs ")".
Proof.
  intros [->|(c & -> & H)]; [left; reflexivity|right]. cut (Ascii.eqb c ")" = true); [intros E; apply Ascii.eqb_eq in E; subst; reflexivity|].
  revert H. pose proof (forall_ascii (fun c => implb (set_ok true false [CChar ")"] c) (Ascii.eqb c ")"))) as P.
  specialize (P ltac:(vm_compute; reflexivity) c). cbn beta in P. intros H. rewrite H in P. exact P.
Qed.

Lemma tz_match_inv tail m : full_match true tz_re tail = Some m -> zone_tail tail (grp m 1).
Proof.
  unfold full_match. destruct (rm true tz_re (mkst None tail []) _) as [s|] eqn:E; [|discriminate]. intros H. injection H as <-.
  apply rm_sound in E as (s' & M & K). destruct (s_rest s') as [|? ?] eqn:R; [|discriminate]. injection K as <-.
  unfold grp. cbn [m_caps]. unfold tz_re in M. destruct M as (s1 & [_ ->] & M). mt_crack M.
  cbn [Regex.s_rest Regex.s_caps] in *. subst. cbn [cap_lookup Nat.eqb]. rewrite ?app_nil_r.
  match goal with A : lang _ SPs ?a, B : lang _ tz_lp ?b, D : lang _ tz_rp ?d |- _ => exists a, b, d end.
  split; [rewrite ?app_nil_r; reflexivity|]. split; [eapply SPs_blanks; eassumption|]. split; [apply lp_inv; assumption|]. split; [apply rp_inv; assumption|].
  apply abbr_inv; assumption.
Qed.

(** the abbreviation is determined by the tail *)
Lemma drop_blanks sp : blanks sp -> forall t t' sp', blanks sp' -> (forall c r, t = c :: r -> is_space c = false) ->
  (forall c r, t' = c :: r -> is_space c = false) -> sp ++ t = sp' ++ t' -> t = t'.
Proof.
  induction 1 as [|c sp Hc B IH]; intros t t' sp' B' Ht Ht' E; cbn in E.
  - destruct sp' as [|c' sp']; [exact E|]. inversion B' as [|? ? Hc B1]. cbn in E. specialize (Ht _ _ E). congruence.
  - destruct sp' as [|c' sp']; cbn in E.
    + symmetry in E. specialize (Ht' _ _ E). congruence.
    + injection E as -> E. inversion B' as [|? ? Hc' B1]. eapply IH; eauto.
Qed.
Lemma letter_facts c : is_letter c = true -> is_space c = false /\ c <> "("%char /\ c <> ")"%char.
Proof.
  pose proof (forall_ascii (fun c => implb (is_letter c) (negb (is_space c) && negb (Ascii.eqb c "(") && negb (Ascii.eqb c ")")))) as P.
  specialize (P ltac:(vm_compute; reflexivity) c). cbn beta in P. intros H. rewrite H in P. cbn in P. repeat split.
  - destruct (is_space c); [discriminate|reflexivity].
  - intros ->. discriminate.
  - intros ->. discriminate.
Qed.
Lemma letters_then a : Forall (fun c => is_letter c = true) a -> forall a' r r', Forall (fun c => is_letter c = true) a' ->
  (r = [] \/ r = bs ")") -> (r' = [] \/ r' = bs ")") -> a ++ r = a' ++ r' -> a = a'.
Proof.
  induction 1 as [|c a Hc F IH]; intros a' r r' F' Hr Hr' E; destruct a' as [|c' a']; cbn in E.
  - reflexivity.
  - exfalso. inversion F' as [|? ? H1 F1]. destruct (letter_facts _ H1) as (_ & _ & N). destruct Hr as [-> | ->]; cbn in E; [discriminate|]. injection E as E _. congruence.
  - exfalso. destruct (letter_facts _ Hc) as (_ & _ & N). destruct Hr' as [-> | ->]; cbn in E; [discriminate|]. injection E as E _. congruence.
  - injection E as -> E. inversion F' as [|? ? H1 F1]. f_equal. apply (IH a' r r'); assumption.
Qed.
Lemma zone_tail_fun tail a a' : zone_tail tail a -> zone_tail tail a' -> a = a'.
Proof.
  intros (sp & lp & rp & -> & B & Hl & Hr & Len & F) (sp' & lp' & rp' & E & B' & Hl' & Hr' & Len' & F').
  assert (N : forall l x r, (l = [] \/ l = bs "(") -> (2 <= List.length x <= 4)%nat -> Forall (fun c => is_letter c = true) x ->
              forall c q, l ++ x ++ r = c :: q -> is_space c = false).
  { intros l x r [-> | ->] Lx Fx c q Eq; cbn in Eq.
    - destruct x; cbn in Lx; [lia|]. inversion Fx; subst. cbn in Eq. injection Eq as -> _. apply letter_facts. assumption.
    - injection Eq as <- _. reflexivity. }
  apply (drop_blanks _ B _ _ _ B') in E; [|eapply N; eauto|eapply N; eauto].
  assert (N2 : forall x r, (2 <= List.length x <= 4)%nat -> Forall (fun c => is_letter c = true) x -> forall q, x ++ r = "("%char :: q -> False).
  { intros x r Lx Fx q Eq. destruct x; cbn in Lx; [lia|]. inversion Fx; subst. cbn in Eq. injection Eq as -> _. destruct (letter_facts _ H1) as (_ & N2 & _). congruence. }
  destruct Hl as [-> | ->], Hl' as [-> | ->]; cbn in E.
  - eapply (letters_then a F a' rp rp'); assumption.
  - exfalso. exact (N2 _ _ Len F _ E).
  - symmetry in E. exfalso. exact (N2 _ _ Len' F' _ E).
  - injection E as E. eapply (letters_then a F a' rp rp'); assumption.
Qed.

Lemma tz_match_intro tail abbr : zone_tail tail abbr -> exists m, full_match true tz_re tail = Some m /\ grp m 1 = abbr.
Proof.
  intros Z. assert (exists m, full_match true tz_re tail = Some m) as [m E].
  { destruct Z as (sp & lp & rp & -> & B & Hl & Hr & Len & F). unfold full_match.
    assert (M : exists s', mt true tz_re (mkst None (sp ++ lp ++ abbr ++ rp) []) s' /\ s_rest s' = []).
    { exists (mkst (lastc rp (lastc abbr (lastc lp (lastc sp None)))) [] [(1%nat, abbr)]). split.
      - eexists. split; [split; reflexivity|]. eexists. split; [apply plain_mt; [reflexivity|apply blanks_SPs; exact B]|].
        eexists. split; [apply plain_mt; [reflexivity|]; destruct Hl as [-> | ->]; [left; reflexivity|right; exists "("%char; split; reflexivity]|].
        eexists. split; [apply mt_grp; [reflexivity|apply abbr_intro; assumption]|].
        exists (mkst (lastc rp (lastc abbr (lastc lp (lastc sp None)))) [] [(1%nat, abbr)]). split; [rewrite <- (app_nil_r rp) at 1; apply plain_mt; [reflexivity|]; destruct Hr as [-> | ->]; [left; reflexivity|right; exists ")"%char; split; reflexivity]|].
        split; [reflexivity|]. eexists. right. split; reflexivity.
      - reflexivity. }
    destruct M as (s' & M & R).
    destruct (rm true tz_re _ _) as [s|] eqn:E; [eauto|].
    pose proof (rm_none _ _ _ _ E _ M) as K. cbn beta in K. rewrite R in K. discriminate. }
  exists m. split; [exact E|]. eapply zone_tail_fun; [apply tz_match_inv; exact E|exact Z].
Qed.
