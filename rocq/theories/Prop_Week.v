(** * "last/next N weeks", "this week" (C38) *)
From Verif Require Import Base Regex RegexParse Calendar Components Utils Execute Spec View ParserSpec WeekSpec CalendarCycle CalendarFacts RegexFacts ResultFacts Template
  ExecuteFacts ParserRe MatchFacts FuelFacts LocateFacts HistoryFacts ParserFacts CasualFacts NumberFacts DeadlineFacts Symbolic Open OrdinalFacts ISOFacts HolidayFacts WeekFacts
  Main P_Deadline P_Week PhraseSpec FragmentFacts AgoRuns AgoFacts Prop_Execute Prop_Casual Prop_Ago.
From Coq Require Import ZifyBool ZifyNat ZifyN.
Open Scope string_scope.
Open Scope list_scope.
Open Scope Z_scope.

Lemma in_week : In week all_parsers. Proof. cbn; tauto. Qed.
(** calls of the registered parsers *)
Definition past (calls : list call) : Prop := forall c, In c calls -> In (fst (fst c)) all_parsers.

(** C38, every result of every text, whatever was parsed before: its text is "this week" or "last/next", possibly an amount, and "week(s)"; "this week" is
    the reference date and the others are 7N days before or after it, all implied, where N is the amount: one if there is none, and zero for a word that is
    not a number. *)
Theorem C38_every_week : forall e calls text t us rs res, sane e -> past calls -> real_instant t us ->
  x_res (execute e week (words_after e calls) text (ptime_of t us)) = Ret rs -> In res rs ->
  has_end res = false /\ untouched [WDay; Hour; Min; Sec; TzOffset] (r_start res) /\
  ((exists sp, r_text res = bs "this" ++ sp ++ bs "week" /\ blanks sp /\ date_implied (r_start res) (mdate t)) \/
   (exists kw s s1 n k s2 ws c, r_text res = kw ++ s1 ++ n ++ s2 ++ ws /\ way kw s /\ blanks s1 /\ s1 <> [] /\ weeks_said n k /\ blanks s2 /\ week_word ws /\
      days_after (s * (7 * k)) (mdate t) c /\ real_date c /\ date_implied (r_start res) c)).
Proof.
  intros e calls text t us rs res He Pc H X I. pose proof (words_table e calls Pc) as Ti.
  set (texts := text :: rev (texts_of calls)). apply (table_more _ text) in Ti. fold texts in Ti.
  assert (Hx : forall off g m idx g' o, table_inv texts g -> search true week_re (skipn off (to_lower text)) = Some m ->
    p_extract week e g (skipn off (to_lower text)) m (ptime_of t us) idx = (g', o) -> table_inv texts g').
  { intros off g m idx g' o Pg S Xw. cbn [p_extract week] in Xw. apply week_words in Xw as [-> | [N ->]]; [exact Pg|].
    destruct (week_caps _ _ S) as [E|[Lw D]]; [congruence|]. apply (table_insert _ text); auto; [left; reflexivity|].
    apply (occurs_skipn _ off). apply (grp_occurs _ _ _ _ 4 S). }
  destruct (results_table e week _ text _ rs res week_re (table_inv texts) He in_week week_compile Hx Ti X I)
    as (off & m & g0 & g1 & r0 & T0 & S & L & Xr & P & ->).
cbn [p_extract week] in Xr. destruct (week_means e g0 _ m t us _ g1 r0 texts H L S T0 Xr) as ((U & Q) & T & Ix & En).
  cbn [r_text r_start res_copy has_end r_hasend]. unfold has_end in En. rewrite T. auto.
Qed.
Print Assumptions C38_every_week.

(** ** The phrases themselves *)
Lemma wk_digit : class_alike true week_re is_digit "0" = true. Proof. vm_compute. reflexivity. Qed.
Lemma wk_blank : class_alike true week_re is_space " " = true. Proof. vm_compute. reflexivity. Qed.
(** a non-empty run, as items *)
Definition run (w : bytes) (d : ascii) : list sitem := match w with [] => [] | c :: w' => [SC c d; SR w' d] end.
Lemma run_text w d : items_text (run w d) = w.
Proof. destruct w as [|c w]; [reflexivity|]. cbn. rewrite app_nil_r. reflexivity. Qed.
Lemma run_items_ok r f d w : class_alike true r f d = true -> Forall (fun c => f c = true) w -> Forall (item_ok' true r) (run w d).
Proof.
  intros H F. destruct w as [|c w]; [constructor|]. inversion F; subst. constructor; [apply (char_ok true r f); assumption|]. constructor; [apply (run_ok true r f); assumption|constructor].
Qed.

Definition week_caps_of (whole n : list sitem) (g : nat) : list (nat * list sitem) :=
  match n with [] => [(5%nat, []); (2%nat, whole); (1%nat, [])] | _ => [(5%nat, []); (2%nat, whole); (g, n); (1%nat, [])] end.
Lemma week_none kw s1 ws : way kw 1 \/ way kw (-1) -> s1 <> [] -> week_word ws ->
  ysearch true closed week_re PStart (cased kw kw ++ run s1 " " ++ cased ws ws) 0
  = Some (0%nat, cased kw kw ++ run s1 " " ++ cased ws ws, week_caps_of (cased kw kw ++ run s1 " " ++ cased ws ws) [] 3).
Proof.
  intros K N W. destruct s1 as [|c s1]; [congruence|]. destruct K as [[[-> _]|[-> _]]|[[-> _]|[-> _]]], W as [-> | ->]; vm_compute; reflexivity.
Qed.
Lemma week_digits kw s1 n s2 ws : way kw 1 \/ way kw (-1) -> s1 <> [] -> week_word ws -> n <> [] ->
  let l := cased kw kw ++ run s1 " " ++ run n "0" ++ run s2 " " ++ cased ws ws in
  ysearch true closed week_re PStart l 0 = Some (0%nat, l, week_caps_of l (run n "0") 3).
Proof.
  intros K N W Nn. destruct s1 as [|c s1]; [congruence|]. destruct n as [|d n]; [congruence|].
  destruct K as [[[-> _]|[-> _]]|[[-> _]|[-> _]]], W as [-> | ->], s2 as [|b s2]; vm_compute; reflexivity.
Qed.
Lemma week_words_run kw s1 n k s2 ws : way kw 1 \/ way kw (-1) -> s1 <> [] -> week_word ws -> In (n, k) number_words -> s2 <> [] ->
  let l := cased kw kw ++ run s1 " " ++ cased (bs n) (bs n) ++ run s2 " " ++ cased ws ws in
  ysearch true closed week_re PStart l 0 = Some (0%nat, l, week_caps_of l (cased (bs n) (bs n)) 4).
Proof.
  intros K N W I N2. destruct s1 as [|c s1]; [congruence|]. destruct s2 as [|b s2]; [congruence|].
  cbn in I; decompose [or] I; try contradiction; match goal with E : (_, _) = (_, _) |- _ => injection E as <- <- end;
  destruct K as [[[-> _]|[-> _]]|[[-> _]|[-> _]]], W as [-> | ->]; vm_compute; reflexivity.
Qed.
Lemma week_this sp : ysearch true closed week_re PStart (cased (bs "this") (bs "this") ++ run sp " " ++ cased (bs "week") (bs "week")) 0
  = Some (0%nat, cased (bs "this") (bs "this") ++ run sp " " ++ cased (bs "week") (bs "week"), week_caps_of (cased (bs "this") (bs "this") ++ run sp " " ++ cased (bs "week") (bs "week")) [] 3).
Proof. destruct sp; vm_compute; reflexivity. Qed.

Lemma week_found text l g c t us idx : Forall (item_ok' true week_re) l -> items_text l = to_lower text -> real_instant t us -> real_date c ->
  (exists n i, ysearch true closed week_re PStart l 0 = Some (0%nat, l, week_caps_of l n i) /\
    (forall m, grp m 2 = to_lower text -> grp m 3 = (if Nat.eqb i 3 then items_text n else []) -> grp m 4 = (if Nat.eqb i 4 then items_text n else []) ->
      exists g' k, week_count g m = (g', Ret k) /\
        dn_of c = (if contains (bs "last") (to_lower text) then add_weeks (dn_of (mdate t)) (- k)
                   else if contains (bs "next") (to_lower text) then add_weeks (dn_of (mdate t)) k else dn_of (mdate t)))) ->
  exists m g', search true week_re (to_lower text) = Some m /\ m_pos m = 0%nat /\ m_str m = to_lower text /\
    forall e, p_extract week e g (to_lower text) m (ptime_of t us) idx = (g', Ret (on_start (fun p => implyComponent "mday" (cd c) (implyComponent "month" (cm c) (implyComponent "year" (cy c) p))) (res_new (ptime_of t us) idx (to_lower text)))).
Proof.
  intros F T H R (n & i & Y & Q). pose proof (open_search true week_re closed [] l _ eq_refl F Y) as S. rewrite app_nil_r, T in S.
  set (m := yres (0%nat, l, week_caps_of l n i)) in *.
  assert (E2 : grp m 2 = to_lower text) by (unfold m, week_caps_of; destruct n; exact T).
  destruct (Q m E2) as (g' & k & W & D).
  { unfold m, week_caps_of. destruct n; [destruct (Nat.eqb i 3); reflexivity|]. do 5 (destruct i as [|i]; [reflexivity|]). reflexivity. }
  { unfold m, week_caps_of. destruct n; [destruct (Nat.eqb i 4); reflexivity|]. do 5 (destruct i as [|i]; [reflexivity|]). reflexivity. }
  exists m, g'. split; [exact S|]. split; [reflexivity|]. split; [exact T|]. intros e. cbn [p_extract week]. unfold week_extract. rewrite (pt_date_of _ _ H), W. cbn [bind]. rewrite E2, <- D.
  destruct (imply_ymd_spec c (res_new (ptime_of t us) idx (grp m 0)) R) as (r' & E & ->). rewrite E. cbn [grp]. change (m_str m) with (items_text l). rewrite T. reflexivity.
Qed.

(** where the key word is *)
Lemma no_a_in_next s1 n s2 ws : blanks s1 -> ~ In "a"%char n -> blanks s2 -> week_word ws -> contains (bs "last") (bs "next" ++ s1 ++ n ++ s2 ++ ws) = false.
Proof.
  intros B1 Na B2 Ww. apply (contains_without _ _ "a"%char); [cbn; tauto|]. intros I.
  apply in_app_or in I as [I|I]; [cbn in I; intuition discriminate|]. apply in_app_or in I as [I|I]; [revert I; apply (not_in_class is_space); [reflexivity|exact B1]|].
  apply in_app_or in I as [I|I]; [contradiction|]. apply in_app_or in I as [I|I]; [revert I; apply (not_in_class is_space); [reflexivity|exact B2]|].
  destruct Ww as [-> | ->]; cbn in I; intuition discriminate.
Qed.
Lemma keyword_shift kw s s1 n s2 ws d k : way kw s -> blanks s1 -> ~ In "a"%char n -> blanks s2 -> week_word ws ->
  (if contains (bs "last") (kw ++ s1 ++ n ++ s2 ++ ws) then add_weeks d (- k) else if contains (bs "next") (kw ++ s1 ++ n ++ s2 ++ ws) then add_weeks d k else d) = d + s * (7 * k).
Proof.
  intros [[-> ->]|[-> ->]] B1 Na B2 Ww; [rewrite contains_start; unfold add_weeks; lia|]. rewrite no_a_in_next by assumption. rewrite contains_start. unfold add_weeks. lia.
Qed.
Lemma amount_no_a n s2 k : week_amount n s2 k -> ~ In "a"%char n.
Proof.
  intros A. destruct A as [|n s D N B L|w k s I B N]; [auto|apply (not_in_class is_digit); [reflexivity|exact D]|].
  cbn in I. decompose [or] I; try contradiction; match goal with E : (_, _) = (_, _) |- _ => injection E as <- <- end; cbn; intuition discriminate.
Qed.
Lemma amount_blanks n s2 k : week_amount n s2 k -> blanks s2.
Proof. intros H; destruct H; try assumption. constructor. Qed.
Lemma word_table_known w k : In (w, k) number_words -> tbl_find (bs w) INTEGER_WORDS = Some k.
Proof. intros I. cbn in I. decompose [or] I; try contradiction; match goal with E : (_, _) = (_, _) |- _ => injection E as <- <- end; reflexivity. Qed.

(** C38, the phrase alone: in any letter case, with any white space, after any history of calls.  "last/next N weeks" is the one result, its text is the
    whole (lower-cased) phrase, and its date, implied, is 7N days before or after the reference date. *)
Theorem C38_week_phrase : forall e calls text t us kw s s1 n s2 k ws c, past calls -> real_instant t us ->
  to_lower text = kw ++ s1 ++ n ++ s2 ++ ws -> way kw s -> blanks s1 -> s1 <> [] -> week_amount n s2 k -> week_word ws ->
  days_after (s * (7 * k)) (mdate t) c -> real_date c ->
  exists res, x_res (execute e week (words_after e calls) text (ptime_of t us)) = Ret [res] /\ r_text res = to_lower text /\ r_index res = 0 /\ has_end res = false /\
    date_implied (r_start res) c /\ untouched [WDay; Hour; Min; Sec; TzOffset] (r_start res).
Proof.
  intros e calls text t us kw s s1 n s2 k ws c Pc H E K B1 N1 A Ww D R. pose proof (words_table e calls Pc) as Ti. set (g := words_after e calls) in *.
  assert (Kw : way kw 1 \/ way kw (-1)) by (destruct K as [[-> ->]|[-> ->]]; [right; left; auto|left; right; auto]).
  assert (Dc : dn_of c = dn_of (mdate t) + s * (7 * k)) by (destruct D as (_ & D); unfold dn_of; lia).
  assert (Q : exists m g', search true week_re (to_lower text) = Some m /\ m_pos m = 0%nat /\ m_str m = to_lower text /\
    forall e, p_extract week e g (to_lower text) m (ptime_of t us) 0 = (g', Ret (on_start (fun p => implyComponent "mday" (cd c) (implyComponent "month" (cm c) (implyComponent "year" (cy c) p))) (res_new (ptime_of t us) 0 (to_lower text))))).
  { pose proof (amount_no_a _ _ _ A) as Na. pose proof (amount_blanks _ _ _ A) as B2. pose proof (keyword_shift kw s s1 n s2 ws (dn_of (mdate t)) k K B1 Na B2 Ww) as Sh.
    rewrite <- E, <- Dc in Sh. destruct A as [|n s2 D0 Nn _ Lm|w k s2 I _ N2].
    - apply (week_found text (cased kw kw ++ run s1 " " ++ cased ws ws) g c t us 0).
      + apply Forall_app; split; [apply self_ok|]. apply Forall_app; split; [apply (run_items_ok _ _ _ _ wk_blank B1)|apply self_ok].
      + rewrite !items_text_app, run_text, !self_text, E. reflexivity.
      + exact H. + exact R.
      + exists [], 3%nat. split; [apply week_none; assumption|]. intros m _ G3 G4. exists g, 1. unfold week_count. rewrite G3, G4. cbn [Nat.eqb items_text map List.concat is_nil negb]. rewrite Sh. auto.
    - apply (week_found text (cased kw kw ++ run s1 " " ++ run n "0" ++ run s2 " " ++ cased ws ws) g c t us 0).
      + apply Forall_app; split; [apply self_ok|]. apply Forall_app; split; [apply (run_items_ok _ _ _ _ wk_blank B1)|].
        apply Forall_app; split; [apply (run_items_ok _ _ _ _ wk_digit D0)|]. apply Forall_app; split; [apply (run_items_ok _ _ _ _ wk_blank B2)|apply self_ok].
      + rewrite !items_text_app, !run_text, !self_text, E. reflexivity.
      + exact H. + exact R.
      + exists (run n "0"), 3%nat. split; [apply (week_digits kw s1 n s2 ws); assumption|]. intros m _ G3 G4. exists g, (decimal n). unfold week_count. rewrite G3, G4, run_text. cbn [Nat.eqb].
        rewrite stoi_digits by assumption. unfold INT_MAX. replace (_ <? decimal n) with false by lia. destruct n; [congruence|]. cbn [is_nil negb]. rewrite Sh. auto.
    - apply (week_found text (cased kw kw ++ run s1 " " ++ cased (bs w) (bs w) ++ run s2 " " ++ cased ws ws) g c t us 0).
      + apply Forall_app; split; [apply self_ok|]. apply Forall_app; split; [apply (run_items_ok _ _ _ _ wk_blank B1)|].
        apply Forall_app; split; [apply self_ok|]. apply Forall_app; split; [apply (run_items_ok _ _ _ _ wk_blank B2)|apply self_ok].
      + rewrite !items_text_app, !run_text, !self_text, E. reflexivity.
      + exact H. + exact R.
      + exists (cased (bs w) (bs w)), 4%nat. split; [apply (week_words_run kw s1 w k s2 ws); assumption|]. intros m _ G3 G4. exists (snd (gw_index g (bs w))), k. unfold week_count. rewrite G3, G4, self_text. cbn [Nat.eqb is_nil negb].
        pose proof (table_value _ g (bs w) Ti) as Tv. rewrite (word_table_known w k I) in Tv. destruct (gw_index g (bs w)) as [v g2]. cbn [fst snd] in *. subst v.
        destruct (bs w) as [|c0 w'] eqn:Ew; [exfalso; clear - I Ew; cbn in I; decompose [or] I; try contradiction; match goal with E : (_, _) = (_, _) |- _ => injection E as <- <- end; discriminate|].
        cbn [is_nil negb]. rewrite Sh. auto. }
  destruct Q as (m & g' & Sm & Pm & Em & X).
  eexists (res_copy _). split; [|split; [|split; [|split; [|split]]]].
  - rewrite (execute_whole e week g text (ptime_of t us) week_re m g' _ week_compile ltac:(apply Nat.leb_le; vm_compute; reflexivity) Sm Pm Em (X e)); [reflexivity|].
    apply (real_month_possible _ (cm c)); [reflexivity|apply R].
  - reflexivity. - reflexivity. - reflexivity. - repeat split. - repeat constructor.
Qed.
Print Assumptions C38_week_phrase.

(** "this week" is the reference date *)
Theorem C38_this_week : forall e g text t us sp, real_instant t us -> to_lower text = bs "this" ++ sp ++ bs "week" -> blanks sp ->
  exists res, x_res (execute e week g text (ptime_of t us)) = Ret [res] /\ r_text res = to_lower text /\ r_index res = 0 /\ has_end res = false /\
    date_implied (r_start res) (mdate t) /\ untouched [WDay; Hour; Min; Sec; TzOffset] (r_start res).
Proof.
  intros e g text t us sp H E B. pose proof (proj1 (proj1 H)) as R.
  assert (Q : exists m g', search true week_re (to_lower text) = Some m /\ m_pos m = 0%nat /\ m_str m = to_lower text /\
    forall e, p_extract week e g (to_lower text) m (ptime_of t us) 0 = (g', Ret (on_start (fun p => implyComponent "mday" (cd (mdate t)) (implyComponent "month" (cm (mdate t)) (implyComponent "year" (cy (mdate t)) p))) (res_new (ptime_of t us) 0 (to_lower text))))).
  { apply (week_found text (cased (bs "this") (bs "this") ++ run sp " " ++ cased (bs "week") (bs "week")) g (mdate t) t us 0).
    + apply Forall_app; split; [apply self_ok|]. apply Forall_app; split; [apply (run_items_ok _ _ _ _ wk_blank B)|apply self_ok].
    + rewrite !items_text_app, run_text, !self_text, E. reflexivity.
    + exact H. + exact R.
    + exists [], 3%nat. split; [apply week_this|]. intros m _ G3 G4. exists g, 1. unfold week_count. rewrite G3, G4. cbn [Nat.eqb items_text map List.concat is_nil negb]. split; [reflexivity|]. rewrite E.
      assert (N : forall c, In c (bs "this" ++ sp ++ bs "week") -> c <> "a"%char /\ c <> "n"%char).
      { intros c I. apply in_app_or in I as [I|I]; [cbn in I; split; intros ->; intuition discriminate|]. apply in_app_or in I as [I|I]; [|cbn in I; split; intros ->; intuition discriminate].
        unfold blanks in B. rewrite Forall_forall in B. specialize (B c I). split; intros ->; discriminate. }
      rewrite (contains_without (bs "last") _ "a"%char); [|cbn; tauto|intros I; apply (proj1 (N _ I)); reflexivity].
      rewrite (contains_without (bs "next") _ "n"%char); [|cbn; tauto|intros I; apply (proj2 (N _ I)); reflexivity]. reflexivity. }
  destruct Q as (m & g' & Sm & Pm & Em & X).
  eexists (res_copy _). split; [|split; [|split; [|split; [|split]]]].
  - rewrite (execute_whole e week g text (ptime_of t us) week_re m g' _ week_compile ltac:(apply Nat.leb_le; vm_compute; reflexivity) Sm Pm Em (X e)); [reflexivity|].
    apply (real_month_possible _ (cm (mdate t))); [reflexivity|apply R].
  - reflexivity. - reflexivity. - reflexivity. - repeat split. - repeat constructor.
Qed.
Print Assumptions C38_this_week.

(** the hypotheses are met: after a call that has added a word to the table, "NEXT Twelve  weeks" is 84 days on *)
Example C38_case : exists r, let t := Moment (Cal 2024 2 20) 5 6 7 in let calls := [(week, bs "next lasting weeks", ptime_of t 0)] in
  past calls /\ real_instant t 1 /\ to_lower (bs "NEXT Twelve  weeks") = bs "next" ++ bs " " ++ bs "twelve" ++ bs "  " ++ bs "weeks" /\ way (bs "next") 1 /\
  week_amount (bs "twelve") (bs "  ") 12 /\ week_word (bs "weeks") /\ days_after (1 * (7 * 12)) (Cal 2024 2 20) (Cal 2024 5 14) /\ real_date (Cal 2024 5 14) /\
  x_res (execute strict_env week (words_after strict_env calls) (bs "NEXT Twelve  weeks") (ptime_of t 1)) = Ret [r] /\ toDate r = Ret (bs "2024-May-14 00:00:00").
Proof.
  eexists. cbv zeta. split; [intros c [<- | []]; apply in_week|]. split; [inst|]. split; [reflexivity|]. split; [right; auto|].
  split; [apply (wa_word "twelve" 12 (bs "  ")); [cbn; auto 20|repeat constructor|discriminate]|]. split; [right; reflexivity|]. split; [concrete|]. split; [inst|].
  split; [vm_compute; reflexivity|vm_compute; reflexivity].
Qed.
