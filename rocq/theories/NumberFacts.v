(** * NumberFacts: numbers written in digits or words, and the conversion to float *)
From Verif Require Import Base Regex RegexParse Utils RegexFacts MatchFacts View ParserSpec.
From Coq Require Import ZifyBool ZifyNat ZifyN.
Open Scope string_scope.
Open Scope list_scope.
Open Scope Z_scope.

(** ** stoi *)
Lemma read_digits_gen w : digits w -> forall a n rest, (match rest with c :: _ => is_digit c = false | [] => True end) ->
  read_digits (w ++ rest) a n = (fold_left (fun a c => 10 * a + (Z.of_N (N_of_ascii c) - 48)) w a, (n + List.length w)%nat).
Proof.
  induction 1 as [|c w Hc Hw IH]; intros a n rest Hr; cbn [app read_digits fold_left List.length].
  - rewrite Nat.add_0_r. destruct rest as [|c rest]; [reflexivity|]. cbn. rewrite Hr. reflexivity.
  - rewrite Hc, IH by exact Hr. unfold digit_val, code. f_equal. lia.
Qed.
Lemma digit_range c : is_digit c = true -> 0 <= Z.of_N (N_of_ascii c) - 48 <= 9.
Proof. unfold is_digit, in_range, code. change (N_of_ascii "0") with 48%N. change (N_of_ascii "9") with 57%N. lia. Qed.
Lemma decimal_acc w : digits w -> forall a, 0 <= a -> a * 10 ^ Z.of_nat (List.length w) <= fold_left (fun a c => 10 * a + (Z.of_N (N_of_ascii c) - 48)) w a < (a + 1) * 10 ^ Z.of_nat (List.length w).
Proof.
  induction 1 as [|c w Hc Hw IH]; intros a Ha; cbn [fold_left List.length]; [lia|].
  pose proof (digit_range _ Hc). specialize (IH (10 * a + (Z.of_N (N_of_ascii c) - 48)) ltac:(lia)).
  rewrite Nat2Z.inj_succ, Z.pow_succ_r by lia. nia.
Qed.
Lemma decimal_bounds w : digits w -> 0 <= decimal w < 10 ^ Z.of_nat (List.length w).
Proof. intros D. pose proof (decimal_acc w D 0 ltac:(lia)). unfold decimal. lia. Qed.
Lemma digit_not_space c : is_digit c = true -> is_space c = false.
Proof. unfold is_digit, is_space, in_range. change (code "0") with 48%N. change (code "9") with 57%N. lia. Qed.
Lemma skip_spaces_digits w rest : digits w -> w <> [] -> skip_spaces (w ++ rest) = w ++ rest.
Proof. intros D N. destruct w as [|c w]; [congruence|]. inversion D; subst. cbn. rewrite digit_not_space by assumption. reflexivity. Qed.
Lemma stoi_digits_gen w rest : digits w -> w <> [] -> (match rest with c :: _ => is_digit c = false | [] => True end) ->
  stoi (w ++ rest) = if INT_MAX <? decimal w then Throw OutOfRange else Ret (decimal w).
Proof.
  intros D N Hr. unfold stoi. rewrite skip_spaces_digits by assumption. destruct w as [|c w]; [congruence|]. inversion D as [|? ? Hc Hw]; subst.
  match goal with |- context [match ?X with (neg, t2) => _ end] => assert (S : X = (false, (c :: w) ++ rest)) end.
  { clear - Hc. cbn [app]. destruct c as [b0 b1 b2 b3 b4 b5 b6 b7].
    destruct b0, b1, b2, b3, b4, b5, b6, b7; try reflexivity; vm_compute in Hc; discriminate. }
  rewrite S. rewrite read_digits_gen by assumption. cbn [List.length Nat.add]. fold (decimal (c :: w)).
  pose proof (decimal_bounds _ D). unfold INT_MIN. destruct (INT_MAX <? decimal (c :: w)) eqn:E; cbn [orb].
  - rewrite orb_true_r. reflexivity.
  - replace (decimal (c :: w) <? -2147483648) with false by lia. reflexivity.
Qed.
Lemma stoi_digits w : digits w -> w <> [] -> stoi w = if INT_MAX <? decimal w then Throw OutOfRange else Ret (decimal w).
Proof. intros D N. rewrite <- (app_nil_r w) at 1. apply stoi_digits_gen; auto. Qed.

(** ** float rounding *)
Lemma fround_small z : 0 <= z <= 2 ^ 24 -> fround z = z.
Proof.
  intros H. destruct (Z.eq_dec z (2 ^ 24)) as [->|N]; [reflexivity|]. unfold fround.
  assert (Z.log2 z < 24). { destruct (Z.eq_dec z 0) as [->|Nz]; [reflexivity|]. apply Z.log2_lt_pow2; lia. }
  replace (Z.log2 z + 1 <=? 24) with true by lia. reflexivity.
Qed.
Lemma fround_large z : 2 ^ 24 <= z -> 2 ^ 24 <= fround z.
Proof.
  intros H. unfold fround. destruct (Z.log2 z + 1 <=? 24) eqn:E; [exact H|].
  pose proof (Z.log2_spec z ltac:(lia)) as [L _]. set (s := Z.log2 z + 1 - 24) in *.
  assert (Hs : 1 <= s) by lia.
  replace (Z.log2 z) with (23 + s) in L by lia. rewrite Z.pow_add_r in L by lia.
  assert (Q : 2 ^ 23 <= z / 2 ^ s) by (apply Z.div_le_lower_bound; [apply Z.pow_pos_nonneg; lia|lia]).
  assert (P2 : 2 <= 2 ^ s). { change 2 with (2 ^ 1) at 1. apply Z.pow_le_mono_r; lia. }
  destruct ((z mod 2 ^ s <? 2 ^ (s - 1)) || ((z mod 2 ^ s =? 2 ^ (s - 1)) && Z.even (z / 2 ^ s))); nia.
Qed.
Lemma fround_nonneg z : 0 <= z -> 0 <= fround z.
Proof. intros H. destruct (Z_le_gt_dec z (2 ^ 24)) as [L|L]; [rewrite fround_small; lia|]. pose proof (fround_large z ltac:(lia)). lia. Qed.
(** a rounded value below the limit was not rounded *)
Lemma fround_exact z : 0 <= z -> fround z < 2 ^ 24 -> fround z = z.
Proof. intros H L. apply fround_small. destruct (Z_le_gt_dec z (2 ^ 24)); [lia|]. pose proof (fround_large z ltac:(lia)). lia. Qed.
