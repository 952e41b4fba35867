(** * AgoRuns: matching "N units\ago" and "N units\later" *)
From Verif Require Import Base Regex RegexParse Calendar Components Utils Execute Spec View ParserSpec PhraseSpec CalendarFacts RegexFacts ResultFacts
  ExecuteFacts ParserRe MatchFacts FuelFacts ParserFacts CasualFacts NumberFacts DeadlineFacts Symbolic Open OrdinalFacts FragmentFacts P_Deadline P_TimeAgo P_TimeLater.
From Coq Require Import ZifyBool ZifyNat ZifyN.
Open Scope string_scope.
Open Scope list_scope.
Open Scope Z_scope.

Definition ago_words : list string := ["ago"; "earlier"]%string.
Definition later_words : list string := ["later"; "from now"]%string.
Lemma ag_digit : class_alike true time_ago_re is_digit "0" = true. Proof. vm_compute. reflexivity. Qed.
Lemma ag_blank : class_alike true time_ago_re is_space " " = true. Proof. vm_compute. reflexivity. Qed.
Lemma lt_digit : class_alike true time_later_re is_digit "0" = true. Proof. vm_compute. reflexivity. Qed.
Lemma lt_blank : class_alike true time_later_re (Ascii.eqb " ") " " = true. Proof. vm_compute. reflexivity. Qed.


Definition bk : list sitem := [SC "\" "\"].
Definition ago_items N sp u kw := N ++ SR sp " " :: cased (bs u) (bs u) ++ bk ++ cased (bs kw) (bs kw).
Definition ago_group N sp u := N ++ SR sp " " :: cased (bs u) (bs u) ++ bk.
Lemma ago_run N sp u kw : amount_items N -> In u (map fst fragment_words) -> In kw ago_words ->
  ysearch true closed time_ago_re PStart (ago_items N sp u kw) 0 =
  Some (0%nat, ago_items N sp u kw, [(5%nat, []); (2%nat, ago_group N sp u); (4%nat, cased (bs u) (bs u)); (3%nat, N); (1%nat, [])]).
Proof.
  intros HN Iu Ik. cbn in Iu, Ik.
  destruct HN as [x w Iw _|c w _ _|x b c s f Hb _ _ _ _|h c s x b Hb _ _ _ _].
  - cbn in Iw. decompose [or] Ik; clear Ik; subst; try contradiction; decompose [or] Iw; clear Iw; subst; try contradiction; decompose [or] Iu; clear Iu; subst; try contradiction; vm_compute; reflexivity.
  - decompose [or] Ik; clear Ik; subst; try contradiction; decompose [or] Iu; clear Iu; subst; try contradiction; vm_compute; reflexivity.
  - decompose [or] Ik; clear Ik; subst; try contradiction; destruct Hb as [-> | ->]; decompose [or] Iu; clear Iu; subst; try contradiction; vm_compute; reflexivity.
  - decompose [or] Ik; clear Ik; subst; try contradiction; destruct Hb as [-> | ->]; decompose [or] Iu; clear Iu; subst; try contradiction; vm_compute; reflexivity.
Qed.
(** whole amounts only: the pattern wants a double quote after "half" *)
Definition whole_items (N : list sitem) : Prop :=
  (exists a w, N = cased a w /\ In w (map (fun x => bs (fst x)) number_words ++ [bs "a"; bs "an"])) \/
  (exists c w, N = [SC c "0"; SR w "0"]) \/
  (exists a b c s f, N = cased a b ++ [SC c " "; SR s " "] ++ cased f (bs "few") /\ article b).
Definition later_items N c sp u kw := N ++ SC c " " :: SR sp " " :: cased (bs u) (bs u) ++ bk ++ cased (bs kw) (bs kw).
Definition later_group N c sp u := N ++ SC c " " :: SR sp " " :: cased (bs u) (bs u) ++ bk.
Lemma later_run N c sp u kw : whole_items N -> In u (map fst fragment_words) -> In kw later_words ->
  ysearch true closed time_later_re PStart (later_items N c sp u kw) 0 =
  Some (0%nat, later_items N c sp u kw, [(5%nat, []); (2%nat, later_group N c sp u); (4%nat, cased (bs u) (bs u)); (3%nat, N); (1%nat, [])]).
Proof.
  intros HN Iu Ik. cbn in Iu, Ik.
  destruct HN as [(x & w & -> & Iw)|[(c0 & w & ->)|(x & b & c0 & s & f & -> & Hb)]].
  - cbn in Iw. decompose [or] Ik; clear Ik; subst; try contradiction; decompose [or] Iw; clear Iw; subst; try contradiction; decompose [or] Iu; clear Iu; subst; try contradiction; vm_compute; reflexivity.
  - decompose [or] Ik; clear Ik; subst; try contradiction; decompose [or] Iu; clear Iu; subst; try contradiction; vm_compute; reflexivity.
  - decompose [or] Ik; clear Ik; subst; try contradiction; destruct Hb as [-> | ->]; decompose [or] Iu; clear Iu; subst; try contradiction; vm_compute; reflexivity.
Qed.
