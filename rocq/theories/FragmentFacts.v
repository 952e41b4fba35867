(** * FragmentFacts: extractDateTimeUnitFragments on sequences of amounts and units *)
From Verif Require Import Base Regex RegexParse Utils Spec View ParserSpec PhraseSpec RegexFacts ParserRe Symbolic Open NumberFacts DeadlineFacts FuelFacts OrdinalFacts.
From Verif Require Import P_Deadline Components Calendar Execute.
From Coq Require Import ZifyBool ZifyNat ZifyN.
Open Scope string_scope.
Open Scope list_scope.
Open Scope Z_scope.

Definition not_blank_next : tail := Tail (fun c => negb (is_space c)) true.
Lemma fu_digit : class_alike true time_unit_re is_digit "0" = true.
Proof. vm_compute. reflexivity. Qed.
Lemma fu_blank : class_alike true time_unit_re is_space " " = true.
Proof. vm_compute. reflexivity. Qed.

(** the items of an amount *)
Inductive amount_items : list sitem -> Prop :=
| ai_word a w : In w (map (fun x => bs (fst x)) number_words ++ [bs "a"; bs "an"; bs "half"]) -> to_lower a = w -> amount_items (cased a w)
| ai_digits c w : is_digit c = true -> digits w -> amount_items [SC c "0"; SR w "0"]
| ai_few a b c s f : article b -> to_lower a = b -> is_space c = true -> blanks s -> to_lower f = bs "few" -> amount_items (cased a b ++ [SC c " "; SR s " "] ++ cased f (bs "few"))
| ai_half h c s a b : article b -> to_lower a = b -> is_space c = true -> blanks s -> to_lower h = bs "half" -> amount_items (cased h (bs "half") ++ [SC c " "; SR s " "] ++ cased a b).

Definition backslash_next : tail := Tail (Ascii.eqb "\") false.
Definition trail_ok (tr : list sitem) (tl : tail) : Prop :=
  tr = [] /\ (tl = closed \/ tl = backslash_next) \/ exists c s, tr = [SC c " "; SR s " "] /\ is_space c = true /\ blanks s /\ tl = not_blank_next.
Lemma to_lower_low w : low w -> to_lower w = w.
Proof. apply low_lower. Qed.

Lemma fragment_run N sp a u tr tl : amount_items N -> In u (map fst fragment_words) -> trail_ok tr tl ->
  ysearch true tl time_unit_re PStart (N ++ SR sp " " :: cased a (bs u) ++ tr) 0 =
  Some (0%nat, N ++ SR sp " " :: cased a (bs u) ++ tr, [(2%nat, cased a (bs u)); (1%nat, N)]).
Proof.
  intros HN Iu HT.
  cbn in Iu.
  destruct HN as [x w Iw _|c w _ _|x b c s f Hb _ _ _ _|h c s x b Hb _ _ _ _].
  - cbn in Iw. destruct HT as [[-> [-> | ->]]|(c1 & s1 & -> & _ & _ & ->)].
    all: decompose [or] Iw; clear Iw; subst; try contradiction; decompose [or] Iu; clear Iu; subst; try contradiction; vm_compute; reflexivity.
  - destruct HT as [[-> [-> | ->]]|(c1 & s1 & -> & _ & _ & ->)]; decompose [or] Iu; clear Iu; subst; try contradiction; vm_compute; reflexivity.
  - destruct HT as [[-> [-> | ->]]|(c1 & s1 & -> & _ & _ & ->)]; destruct Hb as [-> | ->]; decompose [or] Iu; clear Iu; subst; try contradiction; vm_compute; reflexivity.
  - destruct HT as [[-> [-> | ->]]|(c1 & s1 & -> & _ & _ & ->)]; destruct Hb as [-> | ->]; decompose [or] Iu; clear Iu; subst; try contradiction; vm_compute; reflexivity.
Qed.

Lemma fragment_word_low u k : In (u, k) fragment_words -> low (bs u).
Proof. intros I. cbn in I. decompose [or] I; try contradiction; match goal with E : (_, _) = (_, _) |- _ => injection E as <- <- end; repeat constructor. Qed.
Lemma lower_space c : is_space c = true -> lower c = c.
Proof. intros H. apply Ascii.eqb_eq. revert c H. assert (G : forall c, (negb (is_space c) || Ascii.eqb (lower c) c)%bool = true) by (apply forall_ascii; vm_compute; reflexivity). intros c H. specialize (G c). rewrite H in G. exact G. Qed.
Lemma lower_digit c : is_digit c = true -> lower c = c.
Proof. intros H. apply Ascii.eqb_eq. revert c H. assert (G : forall c, (negb (is_digit c) || Ascii.eqb (lower c) c)%bool = true) by (apply forall_ascii; vm_compute; reflexivity). intros c H. specialize (G c). rewrite H in G. exact G. Qed.
Lemma lower_to_space c : is_space (lower c) = true -> is_space c = true.
Proof. intros H. exact (eq_trans (eq_sym (class_lower KSpace c)) H). Qed.
Lemma lower_to_digit c : is_digit (lower c) = true -> is_digit c = true.
Proof. intros H. exact (eq_trans (eq_sym (class_lower KDigit c)) H). Qed.
Lemma blanks_up s : blanks (to_lower s) -> blanks s.
Proof. unfold blanks, to_lower. rewrite Forall_map. apply Forall_impl. exact lower_to_space. Qed.
Lemma blanks_down s : blanks s -> to_lower s = s.
Proof. induction 1 as [|c s H B IH]; [reflexivity|]. cbn. rewrite (lower_space c H). f_equal. exact IH. Qed.
Lemma digits_up s : digits (to_lower s) -> digits s.
Proof. unfold digits, to_lower. rewrite Forall_map. apply Forall_impl. exact lower_to_digit. Qed.
Lemma digits_down s : digits s -> to_lower s = s.
Proof. induction 1 as [|c s H B IH]; [reflexivity|]. cbn. rewrite (lower_digit c H). f_equal. exact IH. Qed.
Lemma low_bs a : forall s, low (bs s) -> to_lower a = bs s -> to_lower a = to_lower (bs s).
Proof. intros s L ->. symmetry. apply low_lower. exact L. Qed.
Lemma article_low b : article b -> low b.
Proof. intros [-> | ->]; repeat constructor. Qed.

(** an amount in any letter case *)
Lemma spelled_items R n q n' : class_alike true R is_digit "0" = true -> class_alike true R is_space " " = true -> spells n q -> to_lower n' = n ->
  exists N, amount_items N /\ items_text N = n' /\ Forall (item_ok' true R) N.
Proof.
  intros fu_digit fu_blank Sp E. destruct Sp as [w k I|w D Nw|a A|a sp A B Nsp| |a sp A B Nsp].
  - exists (cased n' (bs w)). assert (L : low (bs w)) by (cbn in I; decompose [or] I; try contradiction; match goal with E : (_, _) = (_, _) |- _ => injection E as <- <- end; repeat constructor).
    pose proof (low_bs _ _ L E) as E'. split; [|split; [apply cased_text, lower_length, E'|apply cased_ok, E']].
    constructor; [|exact E]. apply in_or_app. left. apply (in_map (fun x => bs (fst x)) _ _ I).
  - subst w. pose proof (digits_up _ D) as D'. destruct n' as [|c w]; [cbn in Nw; congruence|]. inversion D' as [|? ? Hc Hw]; subst. exists [SC c "0"; SR w "0"].
    split; [constructor; assumption|]. split; [cbn; rewrite app_nil_r; reflexivity|].
    constructor; [apply (char_ok _ _ _ _ _ fu_digit Hc)|constructor; [apply (run_ok _ _ _ _ _ fu_digit Hw)|constructor]].
  - exists (cased n' a). assert (E' : to_lower n' = to_lower a) by (rewrite E; symmetry; apply low_lower, article_low, A).
    split; [|split; [apply cased_text, lower_length, E'|apply cased_ok, E']]. constructor; [|exact E]. apply in_or_app. right. destruct A as [-> | ->]; cbn; auto.
  - destruct (map_app_inv lower _ _ _ E) as (a' & r & -> & Ea & Er). destruct (map_app_inv lower _ _ _ Er) as (s' & f & -> & Es & Ef).
    destruct s' as [|c s']; [cbn in Es; congruence|]. assert (Bs : blanks (c :: s')) by (apply blanks_up; unfold to_lower; rewrite Es; exact B). inversion Bs as [|? ? Hc Hs]; subst.
    fold (to_lower a') in *. fold (to_lower f) in Ef.
    exists (cased a' (to_lower a') ++ [SC c " "; SR s' " "] ++ cased f (bs "few")). split; [apply ai_few; auto|].
    assert (E1 : to_lower a' = to_lower (to_lower a')) by (symmetry; apply low_lower, article_low, A).
    assert (E2 : to_lower f = to_lower (bs "few")) by (rewrite Ef; reflexivity).
    split; [rewrite !items_text_app, cased_text by (apply lower_length; exact E1); rewrite (cased_text (bs "few")) by (apply lower_length; exact E2); cbn; rewrite app_nil_r; reflexivity|].
    apply Forall_app. split; [apply cased_ok; exact E1|]. apply Forall_app. split; [|apply cased_ok; exact E2].
    constructor; [apply (char_ok _ _ _ _ _ fu_blank Hc)|constructor; [apply (run_ok _ _ _ _ _ fu_blank Hs)|constructor]].
  - exists (cased n' (bs "half")). assert (E' : to_lower n' = to_lower (bs "half")) by (rewrite E; reflexivity).
    split; [|split; [apply cased_text, lower_length, E'|apply cased_ok, E']]. constructor; [|exact E]. apply in_or_app. right. cbn; auto.
  - destruct (map_app_inv lower _ _ _ E) as (h & r & -> & Eh & Er). destruct (map_app_inv lower _ _ _ Er) as (s' & a' & -> & Es & Ea).
    destruct s' as [|c s']; [cbn in Es; congruence|]. assert (Bs : blanks (c :: s')) by (apply blanks_up; unfold to_lower; rewrite Es; exact B). inversion Bs as [|? ? Hc Hs]; subst.
    fold (to_lower a') in *. fold (to_lower h) in Eh.
    exists (cased h (bs "half") ++ [SC c " "; SR s' " "] ++ cased a' (to_lower a')). split; [apply ai_half; auto|].
    assert (E1 : to_lower a' = to_lower (to_lower a')) by (symmetry; apply low_lower, article_low, A).
    assert (E2 : to_lower h = to_lower (bs "half")) by (rewrite Eh; reflexivity).
    split; [rewrite !items_text_app, (cased_text (bs "half")) by (apply lower_length; exact E2); rewrite cased_text by (apply lower_length; exact E1); cbn; rewrite app_nil_r; reflexivity|].
    apply Forall_app. split; [apply cased_ok; exact E2|]. apply Forall_app. split; [|apply cased_ok; exact E1].
    constructor; [apply (char_ok _ _ _ _ _ fu_blank Hc)|constructor; [apply (run_ok _ _ _ _ _ fu_blank Hs)|constructor]].
Qed.

(** the first search finds the first phrase *)
Lemma first_fragment n q n' sp u k a tr tl T : spells n q -> to_lower n' = n -> blanks sp -> In (u, k) fragment_words -> to_lower a = bs u ->
  trail_ok tr tl -> tail_ok tl T ->
  search true time_unit_re (n' ++ sp ++ a ++ items_text tr ++ T) =
  Some {| m_pos := 0; m_str := n' ++ sp ++ a ++ items_text tr; m_caps := [(2%nat, a); (1%nat, n')] |}.
Proof.
  intros Sp En Bs I Ea Htr HT. destruct (spelled_items time_unit_re n q n' fu_digit fu_blank Sp En) as (N & HN & TN & FN).
  assert (Ea' : to_lower a = to_lower (bs u)) by (apply low_bs; [eapply fragment_word_low; exact I|exact Ea]).
  assert (Iu : In u (map fst fragment_words)) by (apply (in_map fst _ _ I)).
  pose proof (fragment_run N sp a u tr tl HN Iu Htr) as R.
  assert (F : Forall (item_ok' true time_unit_re) (N ++ SR sp " " :: cased a (bs u) ++ tr)).
  { apply Forall_app. split; [exact FN|]. constructor; [apply (run_ok _ _ _ _ _ fu_blank Bs)|]. apply Forall_app. split; [apply cased_ok; exact Ea'|].
    destruct Htr as [[-> _]|(c & s & -> & Hc & Hs & _)]; [constructor|]. constructor; [apply (char_ok _ _ _ _ _ fu_blank Hc)|constructor; [apply (run_ok _ _ _ _ _ fu_blank Hs)|constructor]]. }
  pose proof (open_search true time_unit_re tl T _ _ HT F R) as S0. cbn [yres caps_text map fst snd] in S0.
  rewrite items_text_app, items_text_cons, items_text_app, (cased_text (bs u) a (lower_length _ _ Ea')), TN in S0. cbn [item_text] in S0. rewrite <- !app_assoc in S0. exact S0.
Qed.

Lemma unit_said u k a : In (u, k) fragment_words -> to_lower a = bs u -> fragment_unit a = Some k.
Proof.
  intros I E. unfold fragment_unit. rewrite E. cbn in I. decompose [or] I; try contradiction; match goal with E : (_, _) = (_, _) |- _ => injection E as <- <- end; vm_compute; reflexivity.
Qed.
Lemma amount_said n q n' : spells n q -> small_quantity q -> to_lower n' = n -> fragment_amount n' = Ret (quantity_float q).
Proof.
  intros Sp Sm E. pose proof (spells_amount n q Sp) as A. unfold fragment_amount. rewrite E. unfold deadline_amount, gw_find, gwords_init in A.
  destruct (tbl_find n INTEGER_WORDS) as [v|].
  - destruct q as [k0|]; cbn in A; [|discriminate]. destruct A as (P & [A|(A & _)]); [|discriminate]. injection A as ->. cbn in *. rewrite fround_small by lia. reflexivity.
  - destruct (beq n (bs "a") || beq n (bs "an")); [|destruct (contains (bs "few") n); [|destruct (contains (bs "half") n)]].
    1-3: destruct q as [k0|]; cbn in A; try discriminate; try (destruct A as (P & [A|(A & _)]); [|discriminate]; try discriminate; injection A as A; cbn in *; rewrite fround_small in A by lia; subst; reflexivity); reflexivity.
    destruct (stoi n) as [v| | | |]; cbn [bind].
    1: destruct q as [k0|]; cbn in A; [destruct A as (P & [A|(A & _)]); [|discriminate]; injection A as ->; cbn in *; rewrite fround_small by lia; reflexivity|discriminate].
    all: exfalso; destruct q as [k0|]; cbn in A; [destruct A as (P & [A|(_ & _ & A)]); [discriminate|unfold INT_MAX in A; cbn in Sm; lia]|discriminate].
Qed.

(** nothing in a string without letters or digits *)
Lemma no_fragment_nil : search true time_unit_re [] = None.
Proof. vm_compute. reflexivity. Qed.

Lemma spells_nonempty n q : spells n q -> n <> [].
Proof.
  intros Sp. destruct Sp as [w k I|w D Nw|a A|a sp A B Nsp| |a sp A B Nsp]; try discriminate.
  - cbn in I. decompose [or] I; try contradiction; match goal with E : (_, _) = (_, _) |- _ => injection E as <- <- end; discriminate.
  - exact Nw.
  - destruct A as [-> | ->]; discriminate.
  - destruct A as [-> | ->]; discriminate.
Qed.
Lemma phrases_start t l : unit_phrases t l -> forall t', to_lower t' = t -> tail_ok not_blank_next t'.
Proof.
  assert (H : forall n q rest t', spells n q -> to_lower t' = n ++ rest -> tail_ok not_blank_next t').
  { intros n q rest t' Sp E. destruct t' as [|c t']; [reflexivity|]. cbn [tail_ok not_blank_next t_next]. cbn in E.
    rewrite <- (class_lower KSpace c : is_space (lower c) = is_space c).
    destruct Sp as [w k I|w D Nw|a A|a sp A B Nsp| |a sp A B Nsp].
    - cbn in I. decompose [or] I; try contradiction; match goal with E : (_, _) = (_, _) |- _ => injection E as <- <- end; cbn in E; injection E as E _; rewrite E; reflexivity.
    - destruct w as [|d w]; [congruence|]. inversion D as [|? ? Hd _]; subst. cbn in E. injection E as E _. rewrite E, (digit_not_space d Hd). reflexivity.
    - destruct A as [-> | ->]; cbn in E; injection E as E _; rewrite E; reflexivity.
    - destruct A as [-> | ->]; cbn in E; injection E as E _; rewrite E; reflexivity.
    - cbn in E; injection E as E _; rewrite E; reflexivity.
    - cbn in E; injection E as E _; rewrite E; reflexivity. }
  intros U t' E. destruct U as [|n q sp u k Sp|n q sp u k sp' t l Sp].
  - destruct t'; [reflexivity|discriminate].
  - eapply H; eassumption.
  - eapply H; eassumption.
Qed.

Lemma phrases_collected t l : unit_phrases t l -> (forall q k, In (q, k) l -> small_quantity q) -> forall t' fuel f, to_lower t' = t -> (List.length t' < fuel)%nat ->
  exists f', extract_loop fuel time_unit_re t' f = Ret f' /\
  forall k, f' k = match amount_given l k with Some q => Some (quantity_float q) | None => f k end.
Proof.
  induction 1 as [|n q sp u k Sp Bs I|n q sp u k sp' t l Sp Bs I Bs' Ns U IH]; intros Sm t' fuel f E L; (destruct fuel as [|fuel]; [lia|]); cbn [extract_loop].
  - destruct t'; [|discriminate]. rewrite no_fragment_nil. exists f. split; [reflexivity|]. intros k. reflexivity.
  - destruct (map_app_inv lower _ _ _ E) as (n' & r & -> & En & Er). destruct (map_app_inv lower _ _ _ Er) as (s' & a & -> & Es & Ea).
    assert (Bs2 : blanks s') by (apply blanks_up; unfold to_lower; rewrite Es; exact Bs).
    pose proof (first_fragment n q n' s' u k a [] closed [] Sp En Bs2 I Ea (or_introl (conj eq_refl (or_introl eq_refl))) eq_refl) as F. cbn [items_text map List.concat] in F. rewrite !app_nil_r in F.
    rewrite F. unfold collectDateTimeFragment. cbn [grp m_str m_caps cap_lookup Nat.eqb]. rewrite (amount_said n q n' Sp (Sm q k (or_introl eq_refl)) En). cbn [bind].
    rewrite (unit_said u k a I Ea). cbn [bind]. unfold substr_from. rewrite Nat.ltb_irrefl, skipn_all. cbn [bind].
    destruct fuel as [|fuel]; [exfalso; rewrite !app_length in L; pose proof (spells_nonempty _ _ Sp); destruct n'; cbn in En; [congruence|cbn in L; lia]|].
    cbn [extract_loop]. rewrite no_fragment_nil. eexists. split; [reflexivity|]. intros k'. unfold frag_put. cbn [amount_given]. destruct (String.eqb k' k); reflexivity.
  - destruct (map_app_inv lower _ _ _ E) as (n' & r & -> & En & Er). destruct (map_app_inv lower _ _ _ Er) as (s' & r2 & -> & Es & Er2).
    destruct (map_app_inv lower _ _ _ Er2) as (a & r3 & -> & Ea & Er3). destruct (map_app_inv lower _ _ _ Er3) as (g & t' & -> & Eg & Et).
    assert (Bs2 : blanks s') by (apply blanks_up; unfold to_lower; rewrite Es; exact Bs).
    assert (Bg : blanks g) by (apply blanks_up; unfold to_lower; rewrite Eg; exact Bs').
    destruct g as [|c g]; [cbn in Eg; congruence|]. inversion Bg as [|? ? Hc Hg]; subst.
    pose proof (first_fragment _ q n' s' u k a [SC c " "; SR g " "] not_blank_next t' Sp eq_refl Bs2 I Ea
      (or_intror (ex_intro _ c (ex_intro _ g (conj eq_refl (conj Hc (conj Hg eq_refl)))))) (phrases_start _ _ U _ eq_refl)) as F.
    cbn [items_text map List.concat item_text] in F. rewrite app_nil_r in F. cbn [app] in F. cbn [app].
    rewrite F. unfold collectDateTimeFragment. cbn [grp m_str m_caps cap_lookup Nat.eqb]. rewrite (amount_said _ q n' Sp (Sm q k (or_introl eq_refl)) eq_refl). cbn [bind].
    rewrite (unit_said u k a I Ea). cbn [bind]. unfold substr_from.
    replace (n' ++ s' ++ a ++ c :: g ++ t') with ((n' ++ s' ++ a ++ c :: g) ++ t') by (rewrite <- !app_assoc; reflexivity).
    rewrite (proj2 (Nat.ltb_ge _ _)) by (rewrite !app_length; lia). rewrite skipn_app_exact. cbn [bind].
    destruct (IH ltac:(intros q0 k0 I0; apply (Sm q0 k0); right; exact I0) t' fuel (frag_put f k (quantity_float q)) eq_refl) as (f' & E' & Hf').
    { cbn [app] in L. rewrite !app_length in L. cbn [List.length] in L. rewrite app_length in L. lia. }
    exists f'. split; [exact E'|]. intros k'. rewrite Hf'. unfold frag_put. cbn [amount_given]. destruct (amount_given l k'); [reflexivity|]. destruct (String.eqb k' k); reflexivity.
Qed.
