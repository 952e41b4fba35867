(** * Prop_Utils: the string helpers (C56, C57, C63) *)
From Verif Require Import Base Regex RegexParse Utils Spec View ParserSpec PhraseSpec RegexFacts ParserRe NumberFacts FuelFacts OrdinalFacts FragmentFacts.
From Coq Require Import ZifyBool ZifyNat ZifyN.
Open Scope string_scope.
Open Scope list_scope.
Open Scope Z_scope.

(** ** C56 *)
Lemma single_word w n : In (w, n) ordinal_single -> plain (bs w) /\ bs w <> [] /\ tbl_get (bs w) ORDINAL_WORDS = n.
Proof.
  intros I. cbn in I. decompose [or] I; try contradiction; match goal with E : (_, _) = (_, _) |- _ => injection E as <- <- end;
    (split; [repeat constructor|split; [discriminate|vm_compute; reflexivity]]).
Qed.
Lemma unit_word w n : In (w, n) ordinal_units -> plain (bs w) /\ bs w <> [] /\ tbl_get (bs "twenty" ++ " "%char :: bs w) ORDINAL_WORDS = 20 + n.
Proof.
  intros I. cbn in I. decompose [or] I; try contradiction; match goal with E : (_, _) = (_, _) |- _ => injection E as <- <- end;
    (split; [repeat constructor|split; [discriminate|vm_compute; reflexivity]]).
Qed.
Lemma beq_eq a : forall b, beq a b = true -> a = b.
Proof. induction a as [|x a IH]; intros [|y b] H; try discriminate; [reflexivity|]. cbn in H. apply andb_prop in H as [A B]. apply Ascii.eqb_eq in A. rewrite A, (IH b B). reflexivity. Qed.
Lemma tbl_find_in w t v : tbl_find w t = Some v -> In (w, v) t.
Proof. induction t as [|[k v'] t IH]; cbn; [discriminate|]. destruct (beq w k) eqn:E; [|auto]. apply beq_eq in E. intros H. injection H as ->. left. congruence. Qed.

Lemma in_table (w : string) (n : Z) l : existsb (fun x => String.eqb (fst x) w && (snd x =? n)) l = true -> In (w, n) l.
Proof. intros H. apply existsb_exists in H as ([w' n'] & I & E). apply andb_prop in E as [A B]. apply String.eqb_eq in A. apply Z.eqb_eq in B. cbn in A, B. subst. exact I. Qed.
(** what the table knows is an ordinal word *)
Lemma known_ordinal t v : tbl_find (clean t) ORDINAL_WORDS = Some v -> says_ordinal t v.
Proof.
  intros E. apply tbl_find_in in E. unfold ORDINAL_WORDS in E. cbn [map fst snd] in E.
  assert (One : forall w, In (w, v) ordinal_single -> clean t = bs w -> says_ordinal t v).
  { intros w I C. destruct (clean_one_inv t (bs w) (proj1 (single_word w v I)) C) as (s & s' & -> & G & G'). apply so_one; assumption. }
  assert (Two : forall w n, In (w, n) ordinal_units -> v = 20 + n -> clean t = bs "twenty" ++ " "%char :: bs w -> says_ordinal t v).
  { intros w n I -> C. destruct (unit_word w n I) as (P & N & _). destruct (clean_two_inv t (bs "twenty") (bs w) ltac:(repeat constructor) P N C) as (s & g & s' & -> & G & Gg & Ng & G').
    apply so_twenty; assumption. }
  cbn in E. decompose [or] E; try contradiction; match goal with Q : (_, _) = (_, _) |- _ => injection Q as Q Qv; symmetry in Q end; subst v;
  match goal with Q : _ = ?b |- says_ordinal _ ?n =>
     first [ apply (One (string_of_list_ascii b)); [apply in_table; vm_compute; reflexivity|exact Q]
           | apply (Two (string_of_list_ascii (skipn 7 b)) (n - 20)); [apply in_table; vm_compute; reflexivity|reflexivity|exact Q]
           | destruct (clean_two_inv _ (bs "thirty") (bs "first") ltac:(repeat constructor) ltac:(repeat constructor) ltac:(discriminate) Q) as (s & g & s' & -> & G & Gg & Ng & G'); apply so_thirty; assumption ] end.
Qed.

Theorem C56_ordinal_words : forall text n, says_ordinal (to_lower text) n -> argToOrdinalValue text = Ret n.
Proof.
  intros text n H. rewrite ordinal_value. f_equal. destruct H as [s w n s' I G G'|s g w n' s' I G Gg Ng G'|s g s' G Gg Ng G'].
  - destruct (single_word w n I) as (P & N & V). rewrite clean_one by assumption. exact V.
  - destruct (unit_word w n' I) as (P & N & V). rewrite clean_two by (try assumption; try discriminate; repeat constructor). exact V.
  - rewrite clean_two by (try assumption; try discriminate; repeat constructor). vm_compute. reflexivity.
Qed.
Theorem C56_nothing_else : forall text, (forall n, ~ says_ordinal (to_lower text) n) -> argToOrdinalValue text = Ret 0.
Proof.
  intros text H. rewrite ordinal_value. unfold tbl_get. destruct (tbl_find (clean (to_lower text)) ORDINAL_WORDS) as [v|] eqn:E; [|reflexivity].
  exfalso. exact (H v (known_ordinal _ _ E)).
Qed.
(** the number is 1..31, and each of them has a word *)
Theorem C56_range : forall text n, says_ordinal text n -> 1 <= n <= 31.
Proof.
  intros t n H. inversion H as [s w n' s' I G G' E1 E2|s g w n' s' I G Gg Ng G' E1 E2|s g s' G Gg Ng G' E1 E2]; subst; [| |lia];
    cbn in I; decompose [or] I; try contradiction; match goal with E : (_, _) = (_, _) |- _ => injection E as <- <- end; lia.
Qed.
Theorem C56_every_number : forall n, 1 <= n <= 31 -> exists t, says_ordinal t n.
Proof.
  intros n H.
  assert (G1 : forall w k, In (w, k) ordinal_single -> exists t, says_ordinal t k).
  { intros w k I. exists ([] ++ bs w ++ []). apply so_one; [exact I|constructor|constructor]. }
  assert (G2 : forall w k, In (w, k) ordinal_units -> exists t, says_ordinal t (20 + k)).
  { intros w k I. exists ([] ++ bs "twenty" ++ bs "-" ++ bs w ++ []). apply so_twenty; [exact I|constructor|repeat constructor; right; reflexivity|discriminate|constructor]. }
  destruct (Z_le_dec n 20).
  - assert (D : In n (map snd ordinal_single)).
    { cbn. lia. }
    apply in_map_iff in D as ([w k] & <- & I). exact (G1 w k I).
  - destruct (Z_le_dec n 29).
    + assert (D : In (n - 20) (map snd ordinal_units)).
      { cbn. lia. }
      apply in_map_iff in D as ([w k] & E & I). replace n with (20 + k) by (cbn in E; lia). exact (G2 w k I).
    + destruct (Z.eq_dec n 30) as [->|]; [apply (G1 "thirtieth" 30); cbn; tauto|]. replace n with 31 by lia.
      exists ([] ++ bs "thirty" ++ bs " " ++ bs "first" ++ []). apply so_thirty; [constructor|repeat constructor; left; reflexivity|discriminate|constructor].
Qed.
Example C56_witness : says_ordinal (to_lower (bs " -Twenty -- FIRST ")) 21 /\ ~ (exists n, says_ordinal (to_lower (bs "forty second")) n).
Proof.
  split.
  - change (to_lower (bs " -Twenty -- FIRST ")) with (bs " -" ++ bs "twenty" ++ bs " -- " ++ bs "first" ++ bs " "). apply (so_twenty (bs " -") (bs " -- ") "first" 1 (bs " ")); [cbn; tauto| | |discriminate|];
      repeat constructor; try (left; reflexivity); right; reflexivity.
  - intros [n H]. pose proof (C56_ordinal_words (bs "forty second") n H) as E. vm_compute in E. injection E as <-. pose proof (C56_range _ _ H). lia.
Qed.

(** ** C57 *)
Theorem C57_terminates : forall text, extractDateTimeUnitFragments text <> OutOfFuel.
Proof. exact ends_fragments. Qed.
(** every sequence of amounts and units is collected: for each unit the amount last given for it, and nothing else *)
Theorem C57_phrases_collected : forall text l, unit_phrases (to_lower text) l -> (forall q k, In (q, k) l -> small_quantity q) ->
  exists f, extractDateTimeUnitFragments text = Ret f /\ forall k, f k = option_map quantity_float (amount_given l k).
Proof.
  intros text l U Sm. unfold extractDateTimeUnitFragments, with_re. rewrite time_unit_compile.
  destruct (phrases_collected (to_lower text) l U Sm text (S (List.length text)) frags_empty eq_refl (Nat.lt_succ_diag_r _)) as (f & E & H).
  exists f. split; [exact E|]. intros k. rewrite H. destruct (amount_given l k); reflexivity.
Qed.
(** in particular a single phrase *)
Theorem C57_one_phrase : forall text n q sp u k, to_lower text = n ++ sp ++ bs u -> spells n q -> small_quantity q -> blanks sp -> In (u, k) fragment_words ->
  exists f, extractDateTimeUnitFragments text = Ret f /\ forall k', f k' = if String.eqb k' k then Some (quantity_float q) else None.
Proof.
  intros text n q sp u k E Sp Sm Bs I. destruct (C57_phrases_collected text [(q, k)]) as (f & Ef & H).
  - rewrite E. apply up_last; assumption.
  - intros q' k' [X|[]]. injection X as <- <-. exact Sm.
  - exists f. split; [exact Ef|]. intros k'. rewrite H. cbn. destruct (String.eqb k' k); reflexivity.
Qed.
Example C57_witness : unit_phrases (to_lower (bs "2 Weeks half an  hour")) [(Whole 2, "week"); (Half, "hour")] /\
  (forall q k, In (q, k) [(Whole 2, "week"); (Half, "hour")] -> small_quantity q).
Proof.
  split.
  - change (to_lower (bs "2 Weeks half an  hour")) with (bs "2" ++ bs " " ++ bs "weeks" ++ bs " " ++ ((bs "half" ++ bs " " ++ bs "an") ++ bs "  " ++ bs "hour")).
    apply up_cons; [change (Whole 2) with (Whole (decimal (bs "2"))); apply sp_digits; [repeat constructor|discriminate]|repeat constructor|cbn; tauto|repeat constructor|discriminate|].
    apply up_last; [apply sp_half_a; [right; reflexivity|repeat constructor|discriminate]|repeat constructor|cbn; tauto].
  - intros q k [X|[X|[]]]; injection X as <- <-; cbn; lia.
Qed.

(** ** C63: false.  A phrase not at the very start of the text may be read a second time from its middle. *)
Theorem C63_refuted : exists f f', extractDateTimeUnitFragments (bs "12 days") = Ret f /\ f "day" = Some (FInt 12) /\
  extractDateTimeUnitFragments (bs "about 12 days") = Ret f' /\ f' "day" = Some (FInt 2).
Proof.
  eexists. eexists. split; [vm_compute; reflexivity|]. split; [vm_compute; reflexivity|]. split; [vm_compute; reflexivity|]. vm_compute; reflexivity.
Qed.
Print Assumptions C56_ordinal_words.
Print Assumptions C56_nothing_else.
Print Assumptions C57_phrases_collected.
Print Assumptions C63_refuted.
