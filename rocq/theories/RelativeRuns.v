(** * RelativeRuns: running the relative-date pattern on the phrases *)
From Verif Require Import Base Regex RegexFacts Symbolic Open Spec View ParserSpec RelativeSpec ParserRe AgoFacts.
Open Scope string_scope.
Open Scope list_scope.
Open Scope Z_scope.

(** ** The phrases themselves.  (The white space is spaces.) *)
Lemma rl_digit : class_alike true relative_re is_digit "0" = true. Proof. vm_compute. reflexivity. Qed.
Lemma rl_blank : class_alike true relative_re (Ascii.eqb " ") " " = true. Proof. vm_compute. reflexivity. Qed.
Definition spaces (s : bytes) : Prop := Forall (fun c => Ascii.eqb " " c = true) s.
Definition spread (w : bytes) (d : ascii) : list sitem := match w with [] => [] | c :: w' => [SC c d; SR w' d] end.
Lemma spread_text w d : items_text (spread w d) = w.
Proof. destruct w as [|c w]; [reflexivity|]. cbn. rewrite app_nil_r. reflexivity. Qed.
Lemma spread_ok r f d w : class_alike true r f d = true -> Forall (fun c => f c = true) w -> Forall (item_ok' true r) (spread w d).
Proof.
  intros H F. destruct w as [|c w]; [constructor|]. inversion F; subst. constructor; [apply (char_ok true r f); assumption|]. constructor; [apply (run_ok true r f); assumption|constructor].
Qed.
(** the amount, as items *)
Inductive amount_of : bytes -> list sitem -> Prop :=
| ao_none : amount_of [] []
| ao_digits c w : amount_of (c :: w) (spread (c :: w) "0")
| ao_few : amount_of (bs "few") (cased (bs "few") (bs "few"))
| ao_half : amount_of (bs "half") (cased (bs "half") (bs "half"))
| ao_half_a sp a : article a -> amount_of (bs "half" ++ sp ++ a) (cased (bs "half") (bs "half") ++ spread sp " " ++ cased a a).
Definition unit_names : list string := map fst full_units ++ ["min"; "mins"].
Definition rel_caps (kw : bytes) (n : list sitem) (w : string) : list (nat * list sitem) :=
  [(5%nat, []); (4%nat, cased (bs w) (bs w))] ++ (match n with [] => [] | _ => [(3%nat, n)] end) ++ [(2%nat, cased kw kw); (1%nat, [])].
Definition rel_items (kw s1 : bytes) (n : list sitem) (s2 : bytes) (w : string) : list sitem := cased kw kw ++ spread s1 " " ++ n ++ spread s2 " " ++ cased (bs w) (bs w).
Lemma rel_run kw s1 n N s2 w : kw = bs "this" \/ (exists s, heads kw s) -> In w unit_names -> amount_of n N -> (N = [] -> s2 = []) ->
  ysearch true closed relative_re PStart (rel_items kw s1 N s2 w) 0 = Some (0%nat, rel_items kw s1 N s2 w, rel_caps kw N w).
Proof.
  intros K I A E. 
  assert (K' : In kw [bs "this"; bs "next"; bs "last"; bs "past"]). { destruct K as [-> | (s & [[-> _]|[[-> | ->] _]])]; cbn; tauto. }
  clear K. destruct A as [|c n| | |sp a Ha].
  - rewrite (E eq_refl) in *. cbn in K'. destruct s1; decompose [or] K'; try contradiction; subst kw; cbn in I; decompose [or] I; try contradiction; subst w; vm_compute; reflexivity.
  - cbn in K'. destruct s1, s2; decompose [or] K'; try contradiction; subst kw; cbn in I; decompose [or] I; try contradiction; subst w; vm_compute; reflexivity.
  - cbn in K'. destruct s1, s2; decompose [or] K'; try contradiction; subst kw; cbn in I; decompose [or] I; try contradiction; subst w; vm_compute; reflexivity.
  - cbn in K'. destruct s1, s2; decompose [or] K'; try contradiction; subst kw; cbn in I; decompose [or] I; try contradiction; subst w; vm_compute; reflexivity.
  - cbn in K'. destruct Ha as [-> | ->]; destruct s1, s2, sp; decompose [or] K'; try contradiction; subst kw; cbn in I; decompose [or] I; try contradiction; subst w; vm_compute; reflexivity.
Qed.
