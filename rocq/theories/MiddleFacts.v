(** * MiddleFacts: the month-day parser *)
From Verif Require Import Base Regex RegexParse Calendar Components Utils Execute Spec View ParserSpec PhraseSpec MiddleSpec CalendarCycle CalendarFacts RegexFacts Template ResultFacts
  ExecuteFacts ParserRe MatchFacts LocateFacts HistoryFacts ParserFacts CasualFacts NumberFacts ISOFacts HolidayFacts MonthFacts OrdinalFacts Main P_MonthName P_MiddleEndian Prop_Utils.
From Coq Require Import ZifyBool ZifyNat ZifyN.
Open Scope string_scope.
Open Scope list_scope.
Open Scope Z_scope.

(** ** The parts of a match *)
Lemma comma_word w : lang true me_comma w -> w = bs ",".
Proof.
  intros (c & -> & Hc). assert (Sg : implb (set_ok true false [CChar ","] c) (Ascii.eqb c ",") = true) by (revert c Hc; intros c _; revert c; apply forall_ascii; vm_compute; reflexivity).
  change (set_ok true false [CChar ","] c = true) in Hc. rewrite Hc in Sg. apply Ascii.eqb_eq in Sg. subst. reflexivity.
Qed.
Lemma on_word w : low w -> lang true me_on w -> exists s, w = bs "on" ++ s /\ blanks s.
Proof.
  intros Lw L. word_cases L. rewrite app_nil_r in *. exists x. split; [reflexivity|apply space_run; exact R].
Qed.
Lemma sep_word w : low w -> lang true me_sep w -> date_separator w.
Proof.
  intros Lw L. word_cases L; [left; reflexivity|right; left; reflexivity|right; right..].
  all: repeat match goal with R : Forall _ _ |- _ => apply space_run in R end.
  all: rewrite ?app_nil_r in *.
  all: match goal with
    | |- exists a c b, ?u ++ ?k :: ?v = _ /\ _ => exists u, (bs ","), v; auto 8
    | |- exists a c b, ?u ++ ?v = _ /\ _ => exists u, [], v; auto 8
    end.
Qed.
Lemma suffix_word w : low w -> lang true me_suffix w -> ordinal_suffix w.
Proof. intros Lw L. unfold ordinal_suffix. word_cases L; cbn; tauto. Qed.
Lemma wday_word w : low w -> lang true me_wday w -> exists k, weekday_word w k /\ tbl_get w WEEKDAY_OFFSET = k.
Proof.
  intros Lw L. word_cases L; (eexists; split; [|vm_compute; reflexivity]); match goal with |- weekday_word ?w _ => exists (string_of_list_ascii w) end; (split; [|reflexivity]); cbn; tauto.
Qed.
Lemma me_month_word w : low w -> lang true me_month w -> w = bs "may." \/ exists m, month_word w m /\ tbl_get w MONTH_CONSTANTS = m /\ 1 <= m <= 12.
Proof.
  intros Lw L. word_cases L; first [left; reflexivity|right; eexists; split; [|split; [vm_compute; reflexivity|lia]]].
  all: try (eexists; left; split; [cbn; tauto|reflexivity]).
  all: try (eexists; right; split; [cbn; tauto|left; reflexivity]).
  all: try (eexists; right; split; [cbn; tauto|right; reflexivity]).
  all: first [exists "sept"; right; split; [cbn; tauto|left; reflexivity]|exists "sept"; right; split; [cbn; tauto|right; reflexivity]].
Qed.

Lemma D12_digits w : lang true D12 w -> digits w /\ (1 <= List.length w <= 2)%nat.
Proof.
  intros L. pose proof (only_ok true is_digit D12 w eq_refl L) as D. split; [exact D|].
  pose proof (max_len_ok _ _ _ 2%nat L eq_refl). pose proof (min_len_ok _ _ _ L) as M. change (min_len D12) with 1%nat in M. lia.
Qed.
Lemma D14_digits w : lang true D14 w -> digits w /\ (1 <= List.length w <= 4)%nat.
Proof.
  intros L. pose proof (only_ok true is_digit D14 w eq_refl L) as D. split; [exact D|].
  pose proof (max_len_ok _ _ _ 4%nat L eq_refl). pose proof (min_len_ok _ _ _ L) as M. change (min_len D14) with 1%nat in M. lia.
Qed.
Lemma gap_set c : set_ok true false [CChar " "; CChar "-"] c = true -> gaps [c].
Proof.
  intros H. constructor; [|constructor]. assert (Sg : implb (set_ok true false [CChar " "; CChar "-"] c) (Ascii.eqb c " " || Ascii.eqb c "-") = true) by (clear H; revert c; apply forall_ascii; vm_compute; reflexivity).
  rewrite H in Sg. cbn [implb] in Sg. apply Bool.orb_true_iff in Sg as [E|E]; apply Ascii.eqb_eq in E; auto.
Qed.
Lemma gaps_nil : gaps []. Proof. constructor. Qed.
Lemma ord1_word w : low w -> lang true me_ord1 w -> exists n, says_ordinal w n.
Proof.
  intros Lw L. word_cases L; clear Lw L.
  all: first [match goal with |- exists n, says_ordinal ?w n => let s := eval vm_compute in (string_of_list_ascii w) in
      eexists; change w with ([] ++ bs s ++ []); apply so_one; [cbn; tauto|apply gaps_nil|apply gaps_nil] end | idtac].
  all: match goal with R : set_ok _ _ _ ?c = true |- exists n, says_ordinal (_ :: _ :: _ :: _ :: _ :: _ :: ?c :: ?r) n =>
      let s := eval vm_compute in (string_of_list_ascii r) in
      first [eexists; refine (so_twenty [] [c] s _ [] _ _ _ _ _); [cbn; tauto|apply gaps_nil|apply gap_set; exact R|discriminate|apply gaps_nil]
            |eexists; refine (so_thirty [] [c] [] _ _ _ _); [apply gaps_nil|apply gap_set; exact R|discriminate|apply gaps_nil]] end.
Qed.
Lemma to_word w : low w -> lang true me_to w -> w = bs "to" \/ w = bs "-".
Proof. intros Lw L. word_cases L; auto. Qed.
Lemma ord2_word w : low w -> lang true me_ord2 w -> w <> [] /\ Forall (fun c => is_digit c = false) w.
Proof.
  intros Lw L. split; [intros ->; apply min_len_ok in L; vm_compute in L; lia|]. apply (only_ok true (fun c => negb (is_digit c)) me_ord2 w eq_refl) in L.
  revert L. apply Forall_impl. intros c. destruct (is_digit c); [discriminate|reflexivity].
Qed.
Lemma era_words w : low w -> lang true me_era w -> exists e, e <> NoEra /\ w = era_word e.
Proof. intros Lw L. word_cases L; [exists BE|exists AD|exists BC]; split; [discriminate|reflexivity|discriminate|reflexivity|discriminate|reflexivity]. Qed.
Lemma era2_words w : low w -> lang true me_era2 w -> exists e, (e = AD \/ e = BC) /\ w = era_word e.
Proof. intros Lw L. word_cases L; [exists AD|exists BC]; auto. Qed.
