(** * Alphabet: parsers that cannot match in a text (or cannot match the whole of it) because of the letters and words it is made of *)
From Verif Require Import Base Regex RegexParse Calendar Components Utils Execute Spec View ParserSpec CalendarCycle CalendarFacts RegexFacts ResultFacts
  ExecuteFacts ParserRe MatchFacts FuelFacts LocateFacts HistoryFacts ParserFacts OverlapFacts Main MainFacts.
From Coq Require Import ZifyBool ZifyNat.
Open Scope list_scope.
Open Scope nat_scope.

(** ** Expressions without a word over an alphabet that avoids some factors *)
(** the characters every (lower-case) word must begin with; [true] if they are the whole word *)
Definition lit1 (neg : bool) (items : list citem) : option ascii :=
  match items with [CChar d] => if neg then None else Some (lower d) | _ => None end.
Fixpoint pfx (r : re) : bytes * bool :=
  match r with
  | RSet neg items => match lit1 neg items with Some c => ([c], true) | None => ([], false) end
  | RCat a b => let '(p, f) := pfx a in if f then let '(q, g) := pfx b in (p ++ q, g) else (p, false)
  | RGrp _ a => pfx a
  | REps => ([], true)
  | _ => ([], false)
  end.
Lemma lit1_ok neg items c d : lit1 neg items = Some d -> set_ok true neg items c = true -> is_low c = true -> c = d.
Proof.
  unfold lit1, set_ok. destruct items as [|[x|x y|n k] [|]]; try discriminate. destruct neg; [discriminate|].
  intros E H L. injection E as <-. cbn [existsb item_ok] in H. rewrite Bool.orb_false_r in H. cbn [xorb] in H.
  unfold is_low in L. apply Ascii.eqb_eq in L. rewrite L in H. destruct (Ascii.eqb c (lower x)) eqn:E; [apply Ascii.eqb_eq; exact E|discriminate].
Qed.
Lemma pfx_ok r : forall w, lang true r w -> low w -> exists u, w = fst (pfx r) ++ u /\ (snd (pfx r) = true -> u = []).
Proof.
  induction r as [|neg items|a IHa b IHb|a IHa b IHb|g a IHa|g a IHa|n a IHa| | |neg|neg a IHa]; intros w; cbn [lang pfx].
  all: try (intros H L; exists w; split; [reflexivity|discriminate]).
  - intros -> _. exists []. auto.
  - intros (c & -> & Hc) L. destruct (lit1 neg items) as [d|] eqn:E; [|exists [c]; split; [reflexivity|discriminate]].
    inversion L; subst. rewrite (lit1_ok _ _ _ _ E Hc) by assumption. exists []. auto.
  - intros (u & v & -> & La & Lb) L. apply Forall_app in L as [Lu Lv]. destruct (IHa u La Lu) as (x & Eu & Fx). destruct (pfx a) as [p f]. destruct f.
    + rewrite (Fx eq_refl), app_nil_r in Eu. cbn [fst] in Eu. destruct (IHb v Lb Lv) as (y & Ev & Fy). destruct (pfx b) as [q g]. exists y. cbn [fst snd] in *. subst u v. rewrite app_assoc. auto.
    + exists (x ++ v). cbn [fst snd] in *. subst u. rewrite app_assoc. split; [reflexivity|discriminate].
  - auto.
Qed.
(** no word of the expression is over [A] and avoids every factor of [F] *)
Fixpoint void (A : list ascii) (F : list bytes) (r : re) : bool :=
  match r with
  | RSet neg items => forallb (fun c => negb (set_ok true neg items c)) A
  | RCat a b => if (let p := fst (pfx r) in existsb (fun f => starts_with f p) F) then true else if void A F a then true else void A F b
  | RAlt a b => if void A F a then void A F b else false
  | RGrp _ a => void A F a
  | _ => false
  end.
Lemma starts_prefix f p : starts_with f p = true -> exists u, p = f ++ u.
Proof.
  revert p. induction f as [|x f IH]; intros p H; [exists p; reflexivity|]. destruct p as [|y p]; [discriminate|]. cbn [starts_with] in H.
  apply andb_prop in H as [E H]. apply Ascii.eqb_eq in E. subst y. destruct (IH p H) as [u ->]. exists u. reflexivity.
Qed.
Lemma occurs_app_l f u v : occurs f u -> occurs f (u ++ v).
Proof. intros (a & b & ->). exists a, (b ++ v). rewrite <- !app_assoc. reflexivity. Qed.
Lemma occurs_app_r f u v : occurs f v -> occurs f (u ++ v).
Proof. intros (a & b & ->). exists (u ++ a), b. rewrite <- !app_assoc. reflexivity. Qed.
Lemma void_ok A F r : forall w, void A F r = true -> lang true r w -> low w -> Forall (fun c => In c A) w -> (forall f, In f F -> ~ occurs f w) -> False.
Proof.
  induction r as [|neg items|a IHa b IHb|a IHa b IHb|g a IHa|g a IHa|n a IHa| | |neg|neg a IHa]; intros w; cbn [void]; try discriminate.
  - intros H (c & -> & Hc) _ Ia _. inversion Ia; subst. rewrite forallb_forall in H. specialize (H c). rewrite Hc in H. cbn in H. intuition discriminate.
  - destruct (existsb _ F) eqn:Ex.
    + intros _ L Lo _ No. apply existsb_exists in Ex as (f & If & Hf). apply starts_prefix in Hf as [u Eu]. destruct (pfx_ok _ _ L Lo) as (x & Ew & _).
      apply (No f If). exists [], (u ++ x). rewrite Ew, Eu, <- app_assoc. reflexivity.
    + intros H (u & v & -> & La & Lb) Lo Ia No. apply Forall_app in Lo as [Lu Lv]. apply Forall_app in Ia as [Iu Iv]. destruct (void A F a).
      * apply (IHa u); auto. intros f If O. apply (No f If), occurs_app_l, O.
      * apply (IHb v); auto. intros f If O. apply (No f If), occurs_app_r, O.
  - intros H [L|L]; destruct (void A F a); try discriminate; eauto.
  - cbn [lang]. eauto.
Qed.
Lemma low_app_inv u v w : low (u ++ v ++ w) -> low v.
Proof. unfold low. rewrite !Forall_app. tauto. Qed.
Lemma void_silent A F text p : (match compile (p_pattern p) with Some r => void A F r = true | None => True end) ->
  Forall (fun c => In c A) (to_lower text) -> (forall f, In f F -> ~ occurs f (to_lower text)) -> silent text p.
Proof.
  intros V Ia No. unfold silent. destruct (compile (p_pattern p)) as [r|]; [|exact I].
  destruct (search true r (to_lower text)) as [m|] eqn:Es; [|reflexivity]. exfalso.
  destruct (search_split _ _ _ _ Es) as (pre & post & E & _ & L & _). pose proof (low_to_lower text) as Lo. rewrite E in Lo. apply low_app_inv in Lo.
  apply (void_ok A F r (m_str m)); auto.
  - rewrite E in Ia. apply Forall_app in Ia as [_ Ia]. apply Forall_app in Ia as [Ia _]. exact Ia.
  - intros f If O. apply (No f If). rewrite E. apply occurs_app_r, occurs_app_l, O.
Qed.

(** ** What is left of an expression after one character of a class *)
Definition nothing : re := RSet false [].
Definition is_nothing (r : re) : bool := match r with RSet false [] => true | _ => false end.
Definition cat' (a b : re) : re := if is_nothing a then nothing else match a with REps => b | _ => RCat a b end.
Definition alt' (a b : re) : re := if is_nothing a then b else if is_nothing b then a else RAlt a b.
Fixpoint after1 (C : list ascii) (r : re) : re :=
  match r with
  | RSet neg items => if existsb (set_ok true neg items) C then REps else nothing
  | RCat a b => let x := cat' (after1 C a) b in if 1 <=? min_len a then x else alt' x (after1 C b)
  | RAlt a b => alt' (after1 C a) (after1 C b)
  | RStar g a => cat' (after1 C a) (RStar g a)
  | ROpt _ a => after1 C a
  | RGrp _ a => after1 C a
  | _ => nothing
  end.
Lemma nothing_lang r w : is_nothing r = true -> ~ lang true r w.
Proof. destruct r as [|[|] [|]| | | | | | | | |]; try discriminate. intros _ (c & _ & H). discriminate. Qed.
Lemma cat_lang a b w : lang true (RCat a b) w -> lang true (cat' a b) w.
Proof.
  intros H. unfold cat'. destruct (is_nothing a) eqn:N.
  - destruct H as (u & v & _ & La & _). exfalso. exact (nothing_lang _ _ N La).
  - destruct a; try exact H. destruct H as (u & v & -> & -> & H). exact H.
Qed.
Lemma alt_lang a b w : lang true a w \/ lang true b w -> lang true (alt' a b) w.
Proof.
  intros H. unfold alt'. destruct (is_nothing a) eqn:Na; [destruct H as [H|H]; [exfalso; exact (nothing_lang _ _ Na H)|exact H]|].
  destruct (is_nothing b) eqn:Nb; [destruct H as [H|H]; [exact H|exfalso; exact (nothing_lang _ _ Nb H)]|exact H].
Qed.
Lemma after1_ok C r : forall c w, In c C -> lang true r (c :: w) -> lang true (after1 C r) w.
Proof.
  induction r as [|neg items|a IHa b IHb|a IHa b IHb|g a IHa|g a IHa|n a IHa| | |neg|neg a IHa]; intros c w Ic; cbn [lang after1]; try discriminate.
  - intros (d & E & Hd). injection E as <- ->. replace (existsb (set_ok true neg items) C) with true; [reflexivity|]. symmetry. apply existsb_exists. eauto.
  - intros (u & v & E & La & Lb). destruct u as [|d u].
    + cbn [app] in E. subst v. destruct (1 <=? min_len a) eqn:M; [apply min_len_ok in La; cbn in La; apply Nat.leb_le in M; lia|]. apply alt_lang. right. eauto.
    + cbn [app] in E. injection E as <- ->. assert (X : lang true (cat' (after1 C a) b) (u ++ v)) by (apply cat_lang; exists u, v; eauto).
      destruct (1 <=? min_len a); [exact X|apply alt_lang; left; exact X].
  - intros [L|L]; apply alt_lang; eauto.
  - intros (ws & E & Fs). destruct ws as [|x ws]; [discriminate|]. inversion Fs as [|? ? [Nx Lx] Fs']; subst. destruct x as [|d x]; [congruence|]. cbn [List.concat app] in E. injection E as <- ->.
    apply cat_lang. exists x, (List.concat ws). split; [reflexivity|]. split; [eauto|]. exists ws. auto.
  - intros [E|L]; [discriminate|eauto].
  - eauto.
Qed.
(** the word begins with characters of the given classes *)
Inductive begins : list (list ascii) -> bytes -> bytes -> Prop :=
| bg_nil w : begins [] w w
| bg_cons C Cs c w v : In c C -> begins Cs w v -> begins (C :: Cs) (c :: w) v.
Lemma after_ok Cs : forall r w v, begins Cs w v -> lang true r w -> lang true (fold_left (fun r C => after1 C r) Cs r) v.
Proof. induction Cs as [|C Cs IH]; intros r w v B L; inversion B; subst; cbn [fold_left]; [exact L|]. eapply IH; [eassumption|]. eapply after1_ok; eassumption. Qed.
Lemma begins_not A Cs r w v : void A [] (fold_left (fun r C => after1 C r) Cs r) = true -> begins Cs w v -> low v -> Forall (fun c => In c A) v -> ~ lang true r w.
Proof. intros V B Lo Ia L. exact (void_ok _ _ _ _ V (after_ok _ _ _ _ B L) Lo Ia (fun f K => match K with end)). Qed.

(** ** The answer of the program when one parser takes the whole text *)
Open Scope Z_scope.
Definition minor (e : env) (text : bytes) (ref : ptime) (q : parser) : Prop :=
  exists l, alone e q text ref = Ret l /\ forall r, In r l -> textLength r < Z.of_nat (List.length text).
Lemma silent_minor e text ref q : silent text q -> minor e text ref q.
Proof. intros H. exists []. split; [apply silent_alone; exact H|contradiction]. Qed.
Lemma part_minor e text ref q r l : sane e -> In q all_parsers -> compile (p_pattern q) = Some r -> alone e q text ref = Ret l ->
  ~ lang true r (to_lower text) -> minor e text ref q.
Proof.
  intros He Iq C X N. exists l. split; [exact X|]. intros res I. destruct (results_from _ _ _ _ _ _ _ _ He Iq C X I) as (off & m & g0 & g1 & r0 & Sm & _ & Xr & _ & ->).
  destruct (locates_all q Iq) as [drop Lc]. destruct (Lc _ _ _ _ _ _ _ _ _ C Sm Xr) as [_ Tx]. unfold textLength. cbn [r_text res_copy]. rewrite Tx, skipn_length.
  destruct (search_split _ _ _ _ Sm) as (pre & post & E & _ & L & _). assert (Ll : List.length (to_lower text) = List.length text) by (unfold to_lower; apply map_length).
  assert (Lt : (List.length (skipn off (to_lower text)) = List.length pre + (List.length (m_str m) + List.length post))%nat) by (rewrite E, !app_length; reflexivity).
  rewrite skipn_length in Lt. destruct (Nat.eq_dec (List.length (m_str m)) (List.length text)) as [Q|Q]; [|lia]. exfalso. apply N.
  assert (off = 0%nat) as -> by (destruct (to_lower text) eqn:Et; [|cbn [List.length] in *; lia]; destruct (search_bounds _ _ _ (nonempty_all q Iq r C) Sm) as [_ B]; cbn [List.length] in *; lia).
  cbn [skipn] in E. destruct pre; [|cbn [List.length] in *; lia]. destruct post; [|cbn [List.length] in *; lia]. rewrite app_nil_r in E. cbn [app] in E. rewrite E. exact L.
Qed.
Lemma whole_answer e sortf text ref ps p qs res : parsers = ps ++ p :: qs -> sane e -> is_sort sortf -> Z.of_nat (List.length text) < 2 ^ 32 ->
  alone e p text ref = Ret [res] -> r_text res = to_lower text -> r_index res = 0 -> Forall (minor e text ref) (ps ++ qs) ->
  main e sortf gwords_init text ref = shown (toDate res).
Proof.
  intros Ep He Hs Hn X Tx Ix M.
  assert (R : forall l, Forall (minor e text ref) l -> exists rs, all_alone e l text ref = Ret rs /\ forall r, In r rs -> textLength r < Z.of_nat (List.length text)).
  { induction 1 as [|q l (x & Xq & Hq) _ (rs & Xl & Hl)]; [exists []; split; [reflexivity|contradiction]|].
    exists (x ++ rs). cbn [all_alone]. rewrite Xq. cbn [bind]. rewrite Xl. split; [reflexivity|]. intros r I. apply in_app_or in I as [I|I]; auto. }
  apply Forall_app in M as [M1 M2]. destruct (R ps M1) as (r1 & X1 & H1). destruct (R qs M2) as (r2 & X2 & H2).
  assert (Lr : textLength res = Z.of_nat (List.length text)) by (unfold textLength; rewrite Tx; unfold to_lower; rewrite map_length; reflexivity).
  apply (main_whole e sortf text ref (r1 ++ res :: r2) res He Hs Hn).
  - rewrite Ep, all_alone_app, X1. cbn [bind all_alone]. rewrite X. cbn [bind]. rewrite X2. reflexivity.
  - apply in_or_app. right. left. reflexivity.
  - unfold getIndex. rewrite Ix. reflexivity.
  - exact Lr.
  - intros r I. rewrite Lr. apply in_app_or in I as [I|[I|I]]; auto.
Qed.

(** ** Words separated by blanks or digits *)
Lemma occurs_gap f a mid b : f <> [] -> Forall (fun c => is_lower c = true) f -> mid <> [] -> Forall (fun c => is_lower c = false) mid ->
  occurs f (a ++ mid ++ b) -> occurs f a \/ occurs f b.
Proof.
  intros Nf Lf Nm Lm (x & y & E).
  destruct (Nat.le_gt_cases (List.length x + List.length f) (List.length a)) as [Q|Q].
  - left. rewrite (app_assoc x) in E. apply app_eq_app in E as (l & [(-> & _)|(E & _)]); [exists x, l; rewrite app_assoc; reflexivity|].
    apply (f_equal (@List.length _)) in E as E2. rewrite !app_length in E2. destruct l; [|cbn [List.length] in E2; lia]. rewrite app_nil_r in E. exists x, []. rewrite app_nil_r. symmetry. exact E.
  - right. destruct (Nat.le_gt_cases (List.length a + List.length mid) (List.length x)) as [P|P].
    + rewrite app_assoc in E. apply app_eq_app in E as (l & [(E & E')|(-> & ->)]).
      * apply (f_equal (@List.length _)) in E as E2. rewrite !app_length in E2. destruct l; [|cbn [List.length] in E2; lia]. exists [], y. symmetry. exact E'.
      * exists l, y. reflexivity.
    + exfalso. assert (0 < List.length mid)%nat by (destruct mid; [congruence|cbn [List.length]; lia]). assert (0 < List.length f)%nat by (destruct f; [congruence|cbn [List.length]; lia]).
      set (i := Nat.max (List.length a) (List.length x)).
      assert (Hm : exists c, nth_error (a ++ mid ++ b) i = Some c /\ In c mid).
      { rewrite nth_error_app2 by lia. rewrite nth_error_app1 by lia. destruct (nth_error mid (i - List.length a)) as [c|] eqn:En; [|apply nth_error_None in En; lia].
        exists c. split; [reflexivity|]. apply nth_error_In in En. exact En. }
      assert (Hf : exists c, nth_error (x ++ f ++ y) i = Some c /\ In c f).
      { rewrite nth_error_app2 by lia. rewrite nth_error_app1 by lia. destruct (nth_error f (i - List.length x)) as [c|] eqn:En; [|apply nth_error_None in En; lia].
        exists c. split; [reflexivity|]. apply nth_error_In in En. exact En. }
      destruct Hm as (c & H1 & I1), Hf as (d & H2 & I2). rewrite E in H1. rewrite H1 in H2. injection H2 as ->.
      rewrite Forall_forall in Lf, Lm. specialize (Lf d I2). specialize (Lm d I1). congruence.
Qed.
Lemma not_lower_space c : is_space c = true -> is_lower c = false.
Proof. revert c. assert (H : forall c, (negb (is_space c) || negb (is_lower c)) = true) by (apply forall_ascii; vm_compute; reflexivity). intros c E. specialize (H c). rewrite E in H. cbn in H. apply negb_true_iff. exact H. Qed.
Lemma not_lower_digit c : is_digit c = true -> is_lower c = false.
Proof. revert c. assert (H : forall c, (negb (is_digit c) || negb (is_lower c)) = true) by (apply forall_ascii; vm_compute; reflexivity). intros c E. specialize (H c). rewrite E in H. cbn in H. apply negb_true_iff. exact H. Qed.
Fixpoint containsb (f t : bytes) : bool := if starts_with f t then true else match t with [] => false | _ :: t' => containsb f t' end.
Lemma starts_app f y : starts_with f (f ++ y) = true.
Proof. induction f as [|x f IH]; [destruct y; reflexivity|]. cbn. rewrite Ascii.eqb_refl. exact IH. Qed.
Lemma containsb_ok f t : containsb f t = false -> ~ occurs f t.
Proof.
  intros H (a & b & ->). induction a as [|x a IH]; cbn [app] in H.
  - destruct (f ++ b) eqn:E; cbn [containsb] in H; rewrite <- E, starts_app in H; discriminate.
  - cbn [containsb] in H. destruct (starts_with f (x :: a ++ f ++ b)); [discriminate|]. auto.
Qed.

(** ** Texts of a fixed shape: one class of characters for every place *)
Open Scope nat_scope.
Definition shaped (Cs : list (list ascii)) (w : bytes) : Prop := Forall2 (fun c C => In c C) w Cs.
(** no word of the expression is a prefix (a factor) of a text of that shape *)
Fixpoint no_prefix (r : re) (D : list (list ascii)) : bool :=
  if 1 <=? min_len r then match D with [] => true | C :: D' => let r' := after1 C r in if is_nothing r' then true else no_prefix r' D' end else false.
Lemma no_prefix_ok D : forall r w v, no_prefix r D = true -> shaped D (w ++ v) -> ~ lang true r w.
Proof.
  induction D as [|C D IH]; intros r w v H Sh L; cbn [no_prefix] in H; destruct (1 <=? min_len r) eqn:M; try discriminate; apply Nat.leb_le in M.
  - inversion Sh as [E|]; subst. symmetry in E. apply app_eq_nil in E as [-> _]. apply min_len_ok in L. cbn in L. lia.
  - destruct w as [|c w]; [apply min_len_ok in L; cbn in L; lia|]. cbn [app] in Sh. inversion Sh as [|? ? ? ? Ic Sh']; subst. apply (after1_ok C r c w Ic) in L.
    cbv zeta in H. destruct (is_nothing (after1 C r)) eqn:N; [exact (nothing_lang _ _ N L)|]. exact (IH _ w v H Sh' L).
Qed.
Fixpoint no_factor (r : re) (D : list (list ascii)) : bool :=
  if no_prefix r D then match D with [] => true | _ :: D' => no_factor r D' end else false.
Lemma no_factor_ok r : forall D u w v, no_factor r D = true -> shaped D (u ++ w ++ v) -> ~ lang true r w.
Proof.
  induction D as [|C D IH]; intros u w v H Sh L; cbn [no_factor] in H; destruct (no_prefix r _) eqn:N; try discriminate.
  - inversion Sh as [E|]; subst. symmetry in E. apply app_eq_nil in E as [-> E]. apply app_eq_nil in E as [-> ->]. apply (no_prefix_ok [] r [] [] N); [constructor|exact L].
  - destruct u as [|c u]; [exact (no_prefix_ok _ _ w v N Sh L)|]. cbn [app] in Sh. inversion Sh; subst. eapply IH; eauto.
Qed.
Lemma shape_silent D text p : (match compile (p_pattern p) with Some r => no_factor r D = true | None => True end) -> shaped D (to_lower text) -> silent text p.
Proof.
  intros V Sh. unfold silent. destruct (compile (p_pattern p)) as [r|]; [|exact I]. destruct (search true r (to_lower text)) as [m|] eqn:Es; [|reflexivity]. exfalso.
  destruct (search_split _ _ _ _ Es) as (pre & post & E & _ & L & _). rewrite E in Sh. exact (no_factor_ok _ _ _ _ _ V Sh L).
Qed.
(** the text is not a word of the expression *)
Fixpoint no_word (r : re) (D : list (list ascii)) : bool :=
  match D with [] => 1 <=? min_len r | C :: D' => let r' := after1 C r in if is_nothing r' then true else no_word r' D' end.
Lemma no_word_ok D : forall r w, no_word r D = true -> shaped D w -> ~ lang true r w.
Proof.
  induction D as [|C D IH]; intros r w H Sh L; cbn [no_word] in H; inversion Sh as [|? ? ? ? Ic Sh']; subst.
  - apply Nat.leb_le in H. apply min_len_ok in L. cbn in L. lia.
  - apply (after1_ok C) in L; [|exact Ic]. cbv zeta in H. destruct (is_nothing (after1 C r)) eqn:N; [exact (nothing_lang _ _ N L)|]. exact (IH _ _ H Sh' L).
Qed.
Definition shape_of (s : string) : list (list ascii) := map (fun c => [c]) (bs s).
Lemma shaped_of s : shaped (shape_of s) (bs s).
Proof. unfold shape_of, shaped. induction (bs s) as [|c w IH]; cbn; constructor; auto. left. reflexivity. Qed.
Lemma shaped_app C1 C2 u v : shaped C1 u -> shaped C2 v -> shaped (C1 ++ C2) (u ++ v).
Proof. unfold shaped. intros A B. apply Forall2_app; assumption. Qed.
