(** * HistoryFacts: what earlier calls can change *)
From Verif Require Import Base Regex RegexParse Calendar Components Utils Execute Spec View ParserSpec RegexFacts Template ExecuteFacts ParserRe MatchFacts FuelFacts LocateFacts.
From Verif Require Import P_CasualDate P_CasualTime P_DayOfWeek P_Deadline P_ISO P_MonthName P_MiddleEndian
  P_Relative P_TimeAgo P_TimeLater P_TimeExpression P_Holiday P_Week Main.
From Coq Require Import ZifyBool ZifyNat ZifyN.
Open Scope string_scope.
Open Scope list_scope.
Open Scope Z_scope.

(** ** Captures do not influence whether an expression matches *)
Lemma mt_recap ic r : forall p t c s', mt ic r (mkst p t c) s' -> forall c',
  exists c'', mt ic r (mkst p t c') (mkst (s_prev s') (s_rest s') c'').
Proof.
  induction r as [|neg items|a IHa b IHb|a IHa b IHb|g a IHa|g a IHa|n a IHa| | |neg|neg a IHa]; intros p t c s'; cbn [mt].
  - intros -> c'. exists c'. reflexivity.
  - intros (x & u & E & H & ->) c'. exists c'. cbn. cbn in E. exists x, u. auto.
  - intros ([p1 t1 c1] & Ma & Mb) c'. destruct (IHa _ _ _ _ Ma c') as (c2 & Ma'). cbn [Regex.s_prev Regex.s_rest] in Ma'.
    destruct (IHb _ _ _ _ Mb c2) as (c3 & Mb'). exists c3. eexists. split; eassumption.
  - intros [M|M] c'; [destruct (IHa _ _ _ _ M c') as (c2 & M')|destruct (IHb _ _ _ _ M c') as (c2 & M')]; eauto.
  - intros M c'. remember (mkst p t c) as s eqn:Es. revert p t c c' Es. induction M as [s|s s1 s' R L M IH]; intros p t c c' ->.
    + exists c'. constructor.
    + destruct s1 as [p1 t1 c1]. destruct (IHa _ _ _ _ R c') as (c2 & R'). destruct (IH _ _ _ c2 eq_refl) as (c3 & M').
      exists c3. econstructor; [exact R'|exact L|exact M'].
  - intros [->|M] c'; [exists c'; auto|]. destruct (IHa _ _ _ _ M c') as (c2 & M'). eauto.
  - intros ([p1 t1 c1] & M & ->) c'. destruct (IHa _ _ _ _ M c') as (c2 & M'). cbn [Regex.s_prev Regex.s_rest] in *.
    eexists. eexists. split; [exact M'|]. reflexivity.
  - intros [E ->] c'. exists c'. split; [exact E|reflexivity].
  - intros [E ->] c'. exists c'. split; [exact E|reflexivity].
  - intros [E ->] c'. exists c'. split; [exact E|reflexivity].
  - intros [-> H] c'. exists c'. split; [reflexivity|]. destruct neg.
    + intros ([p2 t2 c2] & M2). apply H. destruct (IHa _ _ _ _ M2 c) as (c3 & M3). eexists. exact M3.
    + destruct H as ([p2 t2 c2] & M2). destruct (IHa _ _ _ _ M2 c') as (c3 & M3). eexists. exact M3.
Qed.

Definition blind (k : st -> option st) : Prop := forall p t c c', k (mkst p t c) = None -> k (mkst p t c') = None.
Lemma blind_some : blind Some.
Proof. intros p t c c' H. discriminate. Qed.
Lemma blind_rm ic r k : blind k -> blind (fun s => rm ic r s k).
Proof.
  intros B p t c c' H. destruct (rm ic r (mkst p t c') k) as [x|] eqn:E; [|reflexivity].
  destruct (rm_sound _ _ _ _ _ E) as ([p1 t1 c1] & M & K). destruct (mt_recap _ _ _ _ _ _ M c) as (c2 & M').
  cbn [Regex.s_prev Regex.s_rest] in M'. pose proof (rm_none _ _ _ _ H _ M') as N. rewrite (B _ _ _ c1 N) in K. discriminate.
Qed.

(** ** The word group of the week pattern never captures a plain number *)
Definition week_item : re := RCat wk_kw (RCat SPp (RCat wk_opt (RCat SPs wk_weeks))).

Lemma digits_num ic w : digits w -> w <> [] -> lang ic wk_num w.
Proof.
  intros D N. destruct w as [|c w]; [congruence|]. inversion D; subst.
  exists [c], w. split; [reflexivity|]. split.
  - exists c. split; [reflexivity|]. unfold set_ok. cbn. rewrite H1. reflexivity.
  - exists (map (fun c => [c]) w). split.
    + clear. induction w as [|x w IH]; [reflexivity|]. cbn. f_equal. exact IH.
    + clear D N. induction H2 as [|x w Hx F IH]; cbn [map]; constructor; [|exact IH].
      split; [discriminate|]. exists x. split; [reflexivity|]. unfold set_ok. cbn. rewrite Hx. reflexivity.
Qed.

(** the captures after the optional number *)
Definition opt_caps (c c1 : list (nat * bytes)) : Prop :=
  c1 = c \/ (exists w, c1 = (3%nat, w) :: c /\ lang true wk_num w) \/
  (exists w, c1 = (4%nat, w) :: c /\ lang true wk_word w /\ ~ digits w).

Lemma wk_opt_run p t c k x : blind k -> rm true wk_opt (mkst p t c) k = Some x ->
  exists p1 t1 c1, k (mkst p1 t1 c1) = Some x /\ opt_caps c c1.
Proof.
  intros B H. unfold wk_opt in H. cbn [rm] in H.
  destruct (rm true wk_num (mkst p t c) _) as [y|] eqn:E3.
  - apply some_inj in H. subst y. destruct (rm_sound _ _ _ _ _ E3) as (s1 & M & K).
    apply mt_plain_inv in M as (w & t' & -> & L & ->); [|reflexivity]. cbn [Regex.s_prev Regex.s_rest Regex.s_caps] in K.
    rewrite consumed_app in K. eexists _, _, _. split; [exact K|]. right. left. eauto.
  - destruct (rm true wk_word (mkst p t c) _) as [y|] eqn:E4.
    + apply some_inj in H. subst y. destruct (rm_sound _ _ _ _ _ E4) as (s1 & M & K).
      apply mt_plain_inv in M as (w & t' & -> & L & ->); [|reflexivity]. cbn [Regex.s_prev Regex.s_rest Regex.s_caps] in K.
      rewrite consumed_app in K. eexists _, _, _. split; [exact K|]. right. right. exists w. split; [reflexivity|]. split; [exact L|].
      intros D. assert (N : w <> []) by (intros ->; apply min_len_ok in L; cbn in L; lia).
      pose proof (rm_none _ _ _ _ E3 _ (plain_mt true wk_num eq_refl w p t' c (digits_num true w D N))) as Z.
      cbn [Regex.s_prev Regex.s_rest Regex.s_caps] in Z. rewrite consumed_app in Z. rewrite (B _ _ _ _ Z) in K. discriminate.
    + eexists _, _, _. split; [exact H|]. left. reflexivity.
Qed.

Lemma caps_after ic r s k x : groups r = [] -> rm ic r s k = Some x -> exists p1 t1, k (mkst p1 t1 (s_caps s)) = Some x.
Proof.
  intros G H. destruct (rm_sound _ _ _ _ _ H) as ([p1 t1 c1] & M & K). destruct (mt_nogroups _ _ _ _ G M) as (w & _ & _ & _ & C).
  cbn [Regex.s_caps] in C. subst c1. eauto.
Qed.

Lemma rm_cat ic a b s k : rm ic (RCat a b) s k = rm ic a s (fun s' => rm ic b s' k).
Proof. reflexivity. Qed.
Lemma rm_alt ic a b s k : rm ic (RAlt a b) s k = match rm ic a s k with Some x => Some x | None => rm ic b s k end.
Proof. reflexivity. Qed.
Lemma rm_grp ic n a s k : rm ic (RGrp n a) s k = rm ic a s (fun s' => k (mkst (s_prev s') (s_rest s') ((n, consumed s s') :: s_caps s'))).
Proof. reflexivity. Qed.
Lemma blind_grp n s k : blind k -> blind (fun s' => k (mkst (s_prev s') (s_rest s') ((n, consumed s s') :: s_caps s'))).
Proof. intros B p t c c' H. cbn [Regex.s_prev Regex.s_rest Regex.s_caps] in *. eapply B. exact H. Qed.

Lemma week_caps tx m : search true week_re tx = Some m -> grp m 4 = [] \/ (lang true wk_word (grp m 4) /\ ~ digits (grp m 4)).
Proof.
  intros S. destruct (search_from_sound _ _ _ _ _ _ S) as (pre & post & caps & _ & _ & C & _ & R & _). unfold grp. rewrite C. clear C S.
  unfold week_re in R. rewrite rm_cat in R. destruct (rm_sound _ _ _ _ _ R) as (s1 & M & K). apply mt_WB in M as [_ ->]. clear R.
  set (s1 := mkst _ _ _) in K. rewrite rm_cat, rm_grp, rm_alt in K.
  set (kk := fun s' => _) in K.
  assert (B : blind kk) by (apply (blind_grp 2 s1 (fun s' => rm true (WB 5) s' Some)); apply blind_rm; apply blind_some).
  assert (F : forall p t c x, kk (mkst p t c) = Some x -> exists w w2, s_caps x = (5%nat, w) :: (2%nat, w2) :: c).
  { intros p t c x H. unfold kk in H. destruct (rm_sound _ _ _ _ _ H) as (s2 & M & E). apply some_inj in E. subst s2.
    apply mt_WB in M as [_ ->]. cbn. eauto. }
  destruct (rm true (RCat wk_kw _) s1 kk) as [y|] eqn:E1.
  - apply some_inj in K. subst y. rewrite rm_cat in E1. apply caps_after in E1 as (p1 & t1 & E1); [|reflexivity].
    rewrite rm_cat in E1. apply caps_after in E1 as (p2 & t2 & E1); [|reflexivity].
    rewrite rm_cat in E1. apply wk_opt_run in E1 as (p3 & t3 & c3 & E1 & O); [|apply blind_rm; exact B].
    apply caps_after in E1 as (p4 & t4 & E1); [|reflexivity]. apply F in E1 as (w & w2 & E). cbn [Regex.s_caps] in E, O.
    subst caps. cbn [cap_lookup Nat.eqb].
    destruct O as [-> | [(v & -> & L)|(v & -> & L & D)]]; cbn; auto.
  - apply caps_after in K as (p1 & t1 & K); [|reflexivity]. apply F in K as (w & w2 & E). cbn [Regex.s_caps s1] in E. subst caps.
    cbn. auto.
Qed.

(** ** Captures are pieces of the text *)
Lemma occurs_tail w u t : occurs w t -> occurs w (u ++ t).
Proof. intros (a & b & ->). exists (u ++ a), b. rewrite <- app_assoc. reflexivity. Qed.
Lemma occurs_trans w u t : occurs w u -> occurs u t -> occurs w t.
Proof. intros (a & b & ->) (c & d & ->). exists (c ++ a), (b ++ d). rewrite <- !app_assoc. reflexivity. Qed.
Lemma occurs_skipn w n t : occurs w (skipn n t) -> occurs w t.
Proof. intros H. rewrite <- (firstn_skipn n t). apply occurs_tail. exact H. Qed.
Lemma occurs_low w t : occurs w t -> low t -> low w.
Proof. intros (a & b & ->) H. exact (low_part _ _ _ H). Qed.

Lemma mt_caps_occur ic r s s' : mt ic r s s' -> forall n w, In (n, w) (s_caps s') -> In (n, w) (s_caps s) \/ occurs w (s_rest s).
Proof.
  revert s s'. induction r as [|neg items|a IHa b IHb|a IHa b IHb|g a IHa|g a IHa|n a IHa| | |neg|neg a IHa]; intros s s'; cbn [mt].
  - intros -> n w I. auto.
  - intros (c & t & E & H & ->) n w I. auto.
  - intros (s1 & Ma & Mb) n w I. destruct (mt_word _ _ _ _ Ma) as (u & _ & E & _). destruct (IHb _ _ Mb _ _ I) as [J|J].
    + exact (IHa _ _ Ma _ _ J).
    + right. rewrite E. apply occurs_tail. exact J.
  - intros [M|M] n w I; [exact (IHa _ _ M _ _ I)|exact (IHb _ _ M _ _ I)].
  - intros M n w I. induction M as [s|s s1 s' R L M IH]; [auto|]. destruct (mt_word _ _ _ _ R) as (u & _ & E & _).
    destruct (IH I) as [J|J]; [exact (IHa _ _ R _ _ J)|]. right. rewrite E. apply occurs_tail. exact J.
  - intros [->|M] n w I; [auto|exact (IHa _ _ M _ _ I)].
  - intros (s1 & M & ->) k w I. cbn [Regex.s_caps] in I. destruct I as [I|I]; [|exact (IHa _ _ M _ _ I)].
    injection I as _ <-. right. destruct (mt_word _ _ _ _ M) as (u & _ & E & _). rewrite (consumed_eq _ _ _ E). exists [], (s_rest s1). exact E.
  - intros [_ ->]; auto.
  - intros [_ ->]; auto.
  - intros [_ ->]; auto.
  - intros [-> _]; auto.
Qed.
Lemma cap_lookup_in n cs : cap_lookup n cs = [] \/ In (n, cap_lookup n cs) cs.
Proof.
  induction cs as [|[k w] cs IH]; cbn [cap_lookup]; [auto|]. destruct (Nat.eqb n k) eqn:E.
  - apply Nat.eqb_eq in E. subst. right. left. reflexivity.
  - destruct IH as [H|H]; [auto|]. right. right. exact H.
Qed.
Lemma search_str_occurs ic r t m : search ic r t = Some m -> occurs (m_str m) t.
Proof. intros S. destruct (search_split _ _ _ _ S) as (pre & post & E & _). exists pre, post. exact E. Qed.
Lemma grp_occurs ic r t m n : search ic r t = Some m -> occurs (grp m n) t.
Proof.
  intros S. destruct n as [|n]; [apply (search_str_occurs _ _ _ _ S)|].
  destruct (search_split _ _ _ _ S) as (pre & post & E & _ & _ & _ & M). unfold grp.
  destruct (cap_lookup_in (Datatypes.S n) (m_caps m)) as [H|H]; [rewrite H; exists [], t; reflexivity|].
  destruct (mt_caps_occur _ _ _ _ M _ _ H) as [[]|J]. cbn [Regex.s_rest] in J. rewrite E. apply occurs_tail. exact J.
Qed.

(** ** What the shared number-word table can look like *)
Definition table_inv (texts : list bytes) (g : gwords) : Prop := forall w,
  gw_find g w = tbl_find w INTEGER_WORDS \/
  (tbl_find w INTEGER_WORDS = None /\ gw_find g w = Some 0 /\ lang true wk_word w /\ ~ digits w /\
   exists t, In t texts /\ occurs w (to_lower t)).

Lemma table_init texts : table_inv texts gwords_init.
Proof. intros w. left. reflexivity. Qed.
Lemma table_more texts t g : table_inv texts g -> table_inv (t :: texts) g.
Proof. intros H w. destruct (H w) as [E|(A & B & C & D & u & I & O)]; [auto|]. right. repeat split; auto. exists u. split; [right; exact I|exact O]. Qed.
Lemma beq_eq a : forall b, beq a b = true <-> a = b.
Proof.
  induction a as [|x a IH]; intros [|y b]; cbn; try (split; [discriminate|discriminate]); [tauto|].
  rewrite andb_true_iff, Ascii.eqb_eq, IH. split; [intros [-> ->]; reflexivity|]. intros H; injection H as -> ->; auto.
Qed.
Lemma table_insert texts t g w : table_inv texts g -> In t texts -> occurs w (to_lower t) -> lang true wk_word w -> ~ digits w ->
  table_inv texts (snd (gw_index g w)).
Proof.
  intros H I O L D. unfold gw_index. destruct (tbl_find w g) as [v|] eqn:E; [exact H|]. cbn [snd]. intros x.
  unfold gw_find. cbn [tbl_find]. destruct (beq x w) eqn:B; [|apply H].
  apply beq_eq in B. subst x. right. destruct (H w) as [K|(A & K & _)]; unfold gw_find in K; rewrite E in K; [|discriminate].
  repeat split; auto. exists t. auto.
Qed.
Lemma table_value texts g w : table_inv texts g -> fst (gw_index g w) = match tbl_find w INTEGER_WORDS with Some v => v | None => 0 end.
Proof.
  intros H. unfold gw_index. destruct (H w) as [E|(A & B & _)]; unfold gw_find in *.
  - rewrite E. destruct (tbl_find w INTEGER_WORDS); reflexivity.
  - rewrite B, A. reflexivity.
Qed.

(** the amounts of the deadline and relative parsers *)
Definition clean (texts : list bytes) : Prop := forall t, In t texts -> ~ occurs (bs "half") (to_lower t) /\ ~ occurs (bs "few") (to_lower t).

Lemma word_chars w : lang true wk_word w -> Forall (fun c => is_word c = true) w /\ (3 <= List.length w)%nat.
Proof.
  intros L. split; [eapply (only_ok true is_word wk_word); [|exact L]; vm_compute; reflexivity|].
  pose proof (min_len_ok _ _ _ L) as H. cbn in H. lia.
Qed.


Lemma not_word_space c : is_word c = true -> set_ok true false [CClass false KSpace] c = false.
Proof.
  pose proof (forall_ascii (fun c => negb (is_word c && set_ok true false [CClass false KSpace] c))) as H.
  intros W. specialize (H ltac:(vm_compute; reflexivity) c). cbn beta in H. rewrite W in H. 
  destruct (set_ok _ _ _ c); [discriminate|reflexivity].
Qed.
Lemma digit_set c : set_ok true false [CRange "0" "9"] c = true -> is_digit c = true.
Proof.
  intros S. pose proof (forall_ascii (fun c => negb (set_ok true false [CRange "0" "9"] c) || is_digit c)) as H.
  specialize (H ltac:(vm_compute; reflexivity) c). cbn beta in H. rewrite S in H. exact H.
Qed.
Lemma Forall_digit w : Forall (fun c => set_ok true false [CRange "0" "9"] c = true) w -> digits w.
Proof. apply Forall_impl. exact digit_set. Qed.

Ltac not_space :=
  match goal with
  | R : set_ok true false [CClass false KSpace] ?c = true, W : is_word ?c = true |- _ => rewrite (not_word_space _ W) in R; discriminate
  end.
Ltac split_words W := repeat (apply Forall_cons_iff in W as [? W]).

(** the only amounts that can clash with an inserted word contain "half" or "few" *)
Lemma deadline_label w : low w -> lang true dl_num w -> lang true wk_word w -> ~ digits w -> tbl_find w INTEGER_WORDS = None ->
  occurs (bs "half") w.
Proof.
  intros Lw L K D N. apply word_chars in K as [W Len]. word_cases L;
    try (vm_compute in N; discriminate); try (cbn in Len; lia); split_words W; try not_space.
  - exfalso. apply D. rewrite ?app_nil_r. constructor; [apply digit_set; assumption|apply Forall_digit; assumption].
  - exists [], []. reflexivity.
Qed.
Lemma relative_label w : low w -> lang true rl_num w -> lang true wk_word w -> ~ digits w -> tbl_find w INTEGER_WORDS = None ->
  occurs (bs "half") w \/ occurs (bs "few") w.
Proof.
  intros Lw L K D N. apply word_chars in K as [W Len]. word_cases L;
    try (split_words W; discriminate).
  - exfalso. apply D. rewrite ?app_nil_r. constructor; [apply digit_set; assumption|apply Forall_digit; assumption].
  - right. exists [], []. reflexivity.
  - left. exists [], []. reflexivity.
  - left. eexists [], _. reflexivity.
  - left. eexists [], _. reflexivity.
Qed.

Lemma rl_empty_word w : lang true wk_word w -> w <> [].
Proof. intros K ->. apply word_chars in K as [_ H]. cbn in H. lia. Qed.

Lemma clean_find texts g w : clean texts -> table_inv texts g ->
  (lang true wk_word w -> ~ digits w -> tbl_find w INTEGER_WORDS = None -> occurs (bs "half") w \/ occurs (bs "few") w) ->
  gw_find g w = tbl_find w INTEGER_WORDS.
Proof.
  intros C H K. destruct (H w) as [E|(A & B & L & D & t & I & O)]; [exact E|]. exfalso. destruct (C t I) as [C1 C2].
  destruct (K L D A) as [X|X]; [apply C1|apply C2]; eapply occurs_trans; eassumption.
Qed.

(** ** Two runs over different tables *)
Definition call := (parser * bytes * ptime)%type.
Definition words_after (e : env) (calls : list call) : gwords :=
  fold_left (fun g (c : call) => let '(p, text, ref) := c in x_words (execute e p g text ref)) calls gwords_init.
Definition texts_of (calls : list call) : list bytes := map (fun c : call => snd (fst c)) calls.

Lemma exec_loop_inv e p r ref text (P : gwords -> Prop) :
  (forall g rem m idx g' o, P g -> occurs rem text -> search true r rem = Some m -> p_extract p e g rem m ref idx = (g', o) -> P g') ->
  forall fuel g rem acc, P g -> occurs rem text -> P (fst (exec_loop fuel e p r g text rem ref acc)).
Proof.
  intros Hx. induction fuel as [|fuel IH]; intros g rem acc Pg O; cbn [exec_loop]; [exact Pg|].
  destruct (search true r rem) as [m|] eqn:S; [|exact Pg].
  destruct (p_extract p e g rem m ref _) as [g' o] eqn:X. pose proof (Hx _ _ _ _ _ _ Pg O S X) as Pg'.
  destruct o as [res| | | |]; try exact Pg'.
  destruct (bind _ _) as [rem'| | | |] eqn:B; try exact Pg'. apply IH; [exact Pg'|].
  match type of B with bind ?x _ = _ => destruct x as [l| | | |]; cbn [bind] in B; try discriminate end.
  unfold substr_from in B. destruct (Nat.ltb _ _) in B; [discriminate|]. injection B as <-.
  eapply occurs_trans; [|exists [], []; rewrite app_nil_r; reflexivity]. eexists (firstn _ text), []. rewrite app_nil_r. symmetry. apply firstn_skipn.
Qed.

Lemma pure_words pat f e g text ref : x_words (execute e {| p_pattern := pat; p_extract := pure_extract f |} g text ref) = g.
Proof.
  unfold execute. cbn [p_pattern]. destruct (compile pat) as [r|]; [|reflexivity].
  pose proof (exec_loop_inv e {| p_pattern := pat; p_extract := pure_extract f |} r ref (to_lower text) (fun g' => g' = g)) as H.
  specialize (H ltac:(intros ? ? ? ? ? ? -> _ _ X; cbn [p_extract] in X; unfold pure_extract in X; injection X as <- _; reflexivity)
                (S (List.length (to_lower text))) g (to_lower text) [] eq_refl ltac:(exists [], []; rewrite app_nil_r; reflexivity)).
  destruct (exec_loop _ _ _ _ _ _ _ _ _). exact H.
Qed.

Lemma week_words e g tx m ref idx g' o : week_extract e g tx m ref idx = (g', o) ->
  g' = g \/ (grp m 4 <> [] /\ g' = snd (gw_index g (grp m 4))).
Proof.
  unfold week_extract. destruct (pt_date ref); try (intros H; injection H as <- _; auto). 
  unfold week_count. destruct (is_nil (grp m 3)); cbn [negb].
  - destruct (grp m 4) as [|c w] eqn:E; cbn [is_nil negb]; [intros H; injection H as <- _; auto|].
    destruct (gw_index g (c :: w)) as [v g1] eqn:G. intros H; injection H as <- _. right. split; [discriminate|]. reflexivity.
  - intros H; injection H as <- _; auto.
Qed.

Lemma execute_table e p g text ref texts : In p all_parsers -> table_inv texts g ->
  table_inv (text :: texts) (x_words (execute e p g text ref)).
Proof.
  intros I H. apply table_more with (t := text) in H. cbn in I.
  repeat destruct I as [<-|I]; try contradiction; try (unfold casual_time, deadline, day_of_week, casual_date, middle_endian, time_later,
    month_name, time_ago, time_expression, iso, holiday, relative; rewrite pure_words; exact H).
  unfold execute. rewrite week_compile.
  pose proof (exec_loop_inv e week week_re ref (to_lower text) (table_inv (text :: texts))) as K.
  specialize (K ltac:(intros g0 rem m idx g' o P O S X; cbn [p_extract week] in X; apply week_words in X as [-> | [N ->]]; [exact P|];
     destruct (week_caps _ _ S) as [E|[L D]]; [congruence|]; apply (table_insert _ text); auto; [left; reflexivity|];
     eapply occurs_trans; [apply (grp_occurs _ _ _ _ 4 S)|exact O])
     (S (List.length (to_lower text))) g (to_lower text) [] H ltac:(exists [], []; rewrite app_nil_r; reflexivity)).
  destruct (exec_loop _ _ _ _ _ _ _ _ _). exact K.
Qed.

Lemma words_table e calls : (forall c, In c calls -> In (fst (fst c)) all_parsers) -> table_inv (rev (texts_of calls)) (words_after e calls).
Proof.
  induction calls as [|[[p text] ref] calls IH] using rev_ind; intros H; [apply table_init|].
  unfold words_after, texts_of. rewrite fold_left_app, map_app, rev_app_distr. cbn [fold_left map rev app].
  apply execute_table; [apply (H (p, text, ref)); apply in_or_app; right; left; reflexivity|].
  apply IH. intros c I. apply H. apply in_or_app. auto.
Qed.

Lemma exec_loop_sim e p r ref text (R : gwords -> gwords -> Prop) :
  (forall g1 g2 rem m idx g1' g2' o1 o2, R g1 g2 -> occurs rem text -> search true r rem = Some m ->
     p_extract p e g1 rem m ref idx = (g1', o1) -> p_extract p e g2 rem m ref idx = (g2', o2) -> o1 = o2 /\ R g1' g2') ->
  forall fuel g1 g2 rem acc, R g1 g2 -> occurs rem text ->
  snd (exec_loop fuel e p r g1 text rem ref acc) = snd (exec_loop fuel e p r g2 text rem ref acc).
Proof.
  intros Hx. induction fuel as [|fuel IH]; intros g1 g2 rem acc Pg O; cbn [exec_loop]; [reflexivity|].
  destruct (search true r rem) as [m|] eqn:S; [|reflexivity].
  destruct (p_extract p e g1 rem m ref _) as [g1' o1] eqn:X1. destruct (p_extract p e g2 rem m ref _) as [g2' o2] eqn:X2.
  destruct (Hx _ _ _ _ _ _ _ _ _ Pg O S X1 X2) as [-> Pg'].
  destruct o2 as [res| | | |]; try reflexivity.
  destruct (bind _ _) as [rem'| | | |] eqn:B; try reflexivity. apply IH; [exact Pg'|].
  match type of B with bind ?x _ = _ => destruct x as [l| | | |]; cbn [bind] in B; try discriminate end.
  unfold substr_from in B. destruct (Nat.ltb _ _) in B; [discriminate|]. injection B as <-.
  eapply occurs_trans; [|exists [], []; rewrite app_nil_r; reflexivity]. eexists (firstn _ text), []. rewrite app_nil_r. symmetry. apply firstn_skipn.
Qed.
Lemma execute_sim e p r ref text (R : gwords -> gwords -> Prop) g1 g2 : compile (p_pattern p) = Some r ->
  (forall g1 g2 rem m idx g1' g2' o1 o2, R g1 g2 -> occurs rem (to_lower text) -> search true r rem = Some m ->
     p_extract p e g1 rem m ref idx = (g1', o1) -> p_extract p e g2 rem m ref idx = (g2', o2) -> o1 = o2 /\ R g1' g2') ->
  R g1 g2 -> x_res (execute e p g1 text ref) = x_res (execute e p g2 text ref).
Proof.
  intros C Hx H. unfold execute. rewrite C.
  pose proof (exec_loop_sim e p r ref (to_lower text) R Hx (S (List.length (to_lower text))) g1 g2 (to_lower text) [] H
               ltac:(exists [], []; rewrite app_nil_r; reflexivity)) as E.
  destruct (exec_loop _ _ _ _ g1 _ _ _ _), (exec_loop _ _ _ _ g2 _ _ _ _). exact E.
Qed.

(** parsers that do not read the table *)
Lemma execute_blind e pat f ref text g1 g2 : (forall g g' tx m i, f e g tx m ref i = f e g' tx m ref i) ->
  let p := {| p_pattern := pat; p_extract := pure_extract f |} in
  x_res (execute e p g1 text ref) = x_res (execute e p g2 text ref).
Proof.
  intros H p. destruct (compile pat) as [r|] eqn:C.
  - apply (execute_sim e p r ref text (fun _ _ => True)); auto. intros ? ? ? ? ? ? ? ? ? _ _ _ X1 X2.
    cbn [p_extract p] in X1, X2. unfold pure_extract in *. injection X1 as _ <-. injection X2 as _ <-. auto.
  - unfold execute. cbn [p_pattern p]. rewrite C. reflexivity.
Qed.

Theorem history_free e p ref text calls : In p all_parsers -> p <> deadline -> p <> relative ->
  (forall c, In c calls -> In (fst (fst c)) all_parsers) ->
  x_res (execute e p (words_after e calls) text ref) = x_res (execute e p gwords_init text ref).
Proof.
  intros I N1 N2 Hc. pose proof (words_table e calls Hc) as T. revert T. generalize (words_after e calls) as g. intros g T. cbn in I.
  repeat destruct I as [<-|I]; try contradiction; try congruence; try (apply execute_blind; reflexivity).
  apply (execute_sim e week week_re ref text (fun g1 g2 => exists texts, table_inv texts g1 /\ table_inv texts g2)); [exact week_compile| |].
  - intros g1 g2 rem m idx g1' g2' o1 o2 (texts & T1 & T2) O S X1 X2.
    apply table_more with (t := text) in T1. apply table_more with (t := text) in T2. split.
    + cbn [p_extract week] in X1, X2. unfold week_extract in X1, X2.
      destruct (pt_date ref); try (injection X1 as _ <-; injection X2 as _ <-; reflexivity). unfold week_count in *.
      destruct (is_nil (grp m 3)); cbn [negb] in *; [|injection X1 as _ <-; injection X2 as _ <-; reflexivity].
      destruct (is_nil (grp m 4)); cbn [negb] in *; [injection X1 as _ <-; injection X2 as _ <-; reflexivity|].
      pose proof (table_value _ _ (grp m 4) T1) as V1. pose proof (table_value _ _ (grp m 4) T2) as V2.
      destruct (gw_index g1 (grp m 4)) as [v1 h1], (gw_index g2 (grp m 4)) as [v2 h2]. cbn [fst] in V1, V2. subst v1 v2.
      injection X1 as _ <-; injection X2 as _ <-; reflexivity.
    + exists (text :: texts).
      assert (G : forall g g' o, table_inv (text :: texts) g -> week_extract e g rem m ref idx = (g', o) -> table_inv (text :: texts) g').
      { intros g0 g' o Tg X. apply week_words in X as [-> | [N ->]]; [exact Tg|].
        destruct (week_caps _ _ S) as [E|[L D]]; [congruence|]. apply (table_insert _ text); auto; [left; reflexivity|].
        eapply occurs_trans; [apply (grp_occurs _ _ _ _ 4 S)|exact O]. }
      split; [exact (G _ _ _ T1 X1)|exact (G _ _ _ T2 X2)].
  - eexists. split; [exact T|apply table_init].
Qed.

Theorem history_clean e p ref text calls : In p all_parsers ->
  (forall c, In c calls -> In (fst (fst c)) all_parsers) -> clean (texts_of calls) ->
  x_res (execute e p (words_after e calls) text ref) = x_res (execute e p gwords_init text ref).
Proof.
  intros I Hc C. 
  assert (D : p = deadline \/ p = relative \/ (p <> deadline /\ p <> relative)).
  { cbn in I. repeat destruct I as [<-|I]; try contradiction; auto; right; right; split; intros E; apply (f_equal p_pattern) in E; vm_compute in E; discriminate. }
  destruct D as [-> | [-> | [N1 N2]]]; [| |apply history_free; assumption].
  - pose proof (words_table e calls Hc) as T. apply (execute_sim e deadline deadline_re ref text (fun g1 g2 => g1 = words_after e calls /\ g2 = gwords_init));
      [exact deadline_compile| |auto].
    intros g1 g2 rem m idx g1' g2' o1 o2 [-> ->] O S X1 X2. cbn [p_extract deadline] in X1, X2. unfold pure_extract in X1, X2.
    injection X1 as <- <-. injection X2 as <- <-. split; [|auto].
    destruct (deadline_match _ _ S) as (_ & _ & _ & _ & w & _ & _ & _ & _ & _ & _ & _ & _ & L & _ & _ & _ & G & _).
    assert (Lw : low w) by (rewrite <- G; eapply occurs_low; [apply (grp_occurs _ _ _ _ 3 S)|]; eapply occurs_low; [exact O|apply low_to_lower]).
    unfold deadline_extract. rewrite G. unfold deadline_amount.
    rewrite (clean_find (rev (texts_of calls)) (words_after e calls) w); [reflexivity| |exact T|].
    + intros t J. apply C. apply in_rev. exact J.
    + intros K1 K2 K3. left. exact (deadline_label w Lw L K1 K2 K3).
  - pose proof (words_table e calls Hc) as T. apply (execute_sim e relative relative_re ref text (fun g1 g2 => g1 = words_after e calls /\ g2 = gwords_init));
      [exact relative_compile| |auto].
    intros g1 g2 rem m idx g1' g2' o1 o2 [-> ->] O S X1 X2. cbn [p_extract relative] in X1, X2. unfold pure_extract in X1, X2.
    injection X1 as <- <-. injection X2 as <- <-. split; [|auto].
    assert (Lw : low (grp m 3)) by (eapply occurs_low; [apply (grp_occurs _ _ _ _ 3 S)|]; eapply occurs_low; [exact O|apply low_to_lower]).
    unfold relative_extract, relative_amount.
    rewrite (clean_find (rev (texts_of calls)) (words_after e calls) (grp m 3)); [reflexivity| |exact T|].
    + intros t J. apply C. apply in_rev. exact J.
    + intros K1 K2 K3. destruct (search_split _ _ _ _ S) as (_ & _ & _ & _ & _ & F & _).
      destruct (grp_ok _ _ m 3 F) as [E|(a & J & L)]; [discriminate|exfalso; exact (rl_empty_word _ K1 E)|].
      assert (A : a = rl_num).
      { cbn [groups relative_re] in J. repeat (destruct J as [J|J]; [try discriminate; try (injection J as <-; reflexivity)|]). destruct J. }
      subst a. exact (relative_label _ Lw L K1 K2 K3).
Qed.
