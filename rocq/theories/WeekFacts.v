(** * WeekFacts: matches of the week pattern *)
From Verif Require Import Base Regex RegexParse Calendar Components Utils Execute Spec View ParserSpec WeekSpec CalendarCycle CalendarFacts RegexFacts ResultFacts Template
  ExecuteFacts ParserRe MatchFacts FuelFacts LocateFacts HistoryFacts ParserFacts CasualFacts NumberFacts DeadlineFacts ISOFacts HolidayFacts P_Deadline P_Week.
From Coq Require Import ZifyBool ZifyNat ZifyN.
Open Scope string_scope.
Open Scope list_scope.
Open Scope Z_scope.

(** a property of the word table kept by every step holds at every step of a scan *)
Lemma scan_table e p r text ref (P : gwords -> Prop) :
  (forall off g m idx g' o, P g -> search true r (skipn off text) = Some m -> p_extract p e g (skipn off text) m ref idx = (g', o) -> P g') ->
  forall off g l g', scan e p r text ref off g l g' -> P g -> forall o m res, In (o, m, res) l ->
  exists off g0 g1, P g0 /\ search true r (skipn off text) = Some m /\ o = (off + m_pos m)%nat /\
    p_extract p e g0 (skipn off text) m ref (Z.of_nat o) = (g1, Ret res).
Proof.
  intros Hx off g l g' S. induction S as [off g N|off g m g1 res l g' Hs X S IH]; intros Pg o m' res' I; [destruct I|].
  destruct I as [I|I].
  - injection I as <- <- <-. exists off, g, g1. auto.
  - apply IH; [|exact I]. eapply Hx; eassumption.
Qed.
Lemma results_table e p g text ref rs res r (P : gwords -> Prop) : sane e -> In p all_parsers -> compile (p_pattern p) = Some r ->
  (forall off g m idx g' o, P g -> search true r (skipn off (to_lower text)) = Some m -> p_extract p e g (skipn off (to_lower text)) m ref idx = (g', o) -> P g') -> P g ->
  x_res (execute e p g text ref) = Ret rs -> In res rs ->
  exists off m g0 g1 r0, P g0 /\ search true r (skipn off (to_lower text)) = Some m /\ low (skipn off (to_lower text)) /\
    p_extract p e g0 (skipn off (to_lower text)) m ref (Z.of_nat (off + m_pos m)) = (g1, Ret r0) /\ hasPossibleDates r0 = true /\ res = res_copy r0.
Proof.
  intros He Ip C Hx Pg H I. pose proof (execute_scan _ _ _ _ _ _ He (nonempty_all _ Ip) H) as S. rewrite C in S.
  destruct S as (l & S & ->). apply kept_in in I as (o & m & r0 & I & Ps & ->).
  destruct (scan_table e p r (to_lower text) ref P Hx _ _ _ _ S Pg _ _ _ I) as (off & g0 & g1 & Pg0 & Sm & -> & X).
  exists off, m, g0, g1, r0. repeat split; auto. apply low_skipn, low_to_lower.
Qed.

Lemma week_match tx m : search true week_re tx = Some m -> low tx ->
  (exists sp, m_str m = bs "this" ++ sp ++ bs "week" /\ blanks sp /\ grp m 2 = m_str m /\ grp m 3 = [] /\ grp m 4 = []) \/
  (exists kw s1 n s2 ws, m_str m = kw ++ s1 ++ n ++ s2 ++ ws /\ (kw = bs "last" \/ kw = bs "next") /\ blanks s1 /\ s1 <> [] /\ blanks s2 /\ week_word ws /\ grp m 2 = m_str m /\
    ((n = [] /\ grp m 3 = [] /\ grp m 4 = []) \/ (digits n /\ n <> [] /\ grp m 3 = n /\ grp m 4 = []) \/
     (lang true wk_word n /\ grp m 3 = [] /\ grp m 4 = n))).
Proof.
  intros H Lw. shape H. unfold grp. rewrite C. clear C.
  unfold week_re in M. destruct M as (s1 & M1 & M). apply mt_WB in M1 as [Hwb ->]. destruct M as (s2 & M2 & M3).
  apply mt_grp_gen in M2 as (s3 & w & M2 & Ew & _ & ->). apply mt_WB in M3 as [Hwb2 ->]. cbn [Regex.s_rest Regex.s_caps Regex.s_prev] in *.
  unfold same in Es. rewrite Ew in Es. apply app_inv_tail in Es. subst w.
  assert (Lm : low (m_str m)) by (rewrite Et in Lw; eapply low_part; exact Lw).
  destruct M2 as [M2|M2].
  - right. destruct M2 as (t1 & K & M2). apply mt_plain_inv in K; [|reflexivity]. destruct K as (kw & u1 & E1 & L1 & ->).
    destruct M2 as (t2 & K & M2). apply mt_plain_inv in K; [|reflexivity]. destruct K as (b1 & u2 & E2 & L2 & ->).
    destruct M2 as (t3 & K & M2). 
    assert (Q : exists n c3, u2 = n ++ s_rest t3 /\ s_caps t3 = c3 /\ ((n = [] /\ c3 = [(1%nat, [])]) \/ (lang true wk_num n /\ c3 = [(3%nat, n); (1%nat, [])]) \/ (lang true wk_word n /\ c3 = [(4%nat, n); (1%nat, [])]))).
    { destruct K as [->|[K|K]].
      - exists [], [(1%nat, [])]. cbn. auto.
      - apply mt_grp_inv in K; [|reflexivity]. destruct K as (n & u3 & E3 & L3 & ->). exists n, [(3%nat, n); (1%nat, [])]. cbn. auto 10.
      - apply mt_grp_inv in K; [|reflexivity]. destruct K as (n & u3 & E3 & L3 & ->). exists n, [(4%nat, n); (1%nat, [])]. cbn. auto 10. }
    destruct Q as (n & c3 & E3 & C3 & Q). destruct t3 as [p3 r3 c3']. cbn [Regex.s_rest Regex.s_caps] in *. subst c3'.
    destruct M2 as (t4 & K2 & M2). apply mt_plain_inv in K2; [|reflexivity]. destruct K2 as (b2 & u4 & E4 & L4 & ->).
    apply mt_plain_inv in M2; [|reflexivity]. destruct M2 as (ws & u5 & E5 & L5 & ->). cbn [Regex.s_rest Regex.s_caps Regex.s_prev] in *.
    assert (E : m_str m = kw ++ b1 ++ n ++ b2 ++ ws).
    { apply (app_inv_tail u5). rewrite <- Ew, E1, E2, E3, E4, E5, <- !app_assoc. reflexivity. }
    rewrite E in Lm. apply low_app in Lm as [Lk Lm]. apply low_app in Lm as [_ Lm]. apply low_app in Lm as [_ Lm]. apply low_app in Lm as [_ Lws].
    apply SPp_blanks in L2 as [B1 N1]. apply SPs_blanks in L4.
    exists kw, b1, n, b2, ws. split; [exact E|]. split; [clear - L1 Lk; word_cases L1; auto|]. do 3 (split; [assumption|]).
    split; [clear - L5 Lws; word_cases L5; [left|right]; reflexivity|]. split; [reflexivity|].
    destruct Q as [[-> ->]|[[Ln ->]|[Ln ->]]]; cbn [cap_lookup Nat.eqb]; auto 10.
    right. left. repeat split; auto; [|intros ->; apply min_len_ok in Ln; cbn in Ln; lia]. eapply (only_ok true is_digit wk_num); [|exact Ln]. vm_compute. reflexivity.
  - left. apply mt_plain_inv in M2; [|reflexivity]. destruct M2 as (w & u & E1 & L1 & ->). cbn [Regex.s_rest Regex.s_caps Regex.s_prev] in *.
    assert (w = m_str m) by (apply (app_inv_tail u); rewrite <- E1; exact Ew). subst w. clear - L1 Lm.
    word_cases L1. match goal with R : Forall _ ?x |- _ => exists x; apply space_run in R end. cbn [cap_lookup Nat.eqb]. auto 10.
Qed.

(** the number of weeks *)
Lemma starts_in needle : forall t, starts_with needle t = true -> forall c, In c needle -> In c t.
Proof.
  induction needle as [|x needle IH]; intros t H c I; [destruct I|]. destruct t as [|y t]; [discriminate|]. cbn in H. apply andb_prop in H as [E H].
  apply Ascii.eqb_eq in E. subst y. destruct I as [->|I]; [left; reflexivity|right; apply (IH t H c I)].
Qed.
Lemma contains_in needle : forall t, contains needle t = true -> forall c, In c needle -> In c t.
Proof.
  induction t as [|y t IH]; intros H c I; cbn [contains] in H.
  - destruct needle; [destruct I|discriminate].
  - apply orb_prop in H as [H|H]; [apply (starts_in _ _ H c I)|right; apply IH; assumption].
Qed.
Lemma contains_without needle t c : In c needle -> ~ In c t -> contains needle t = false.
Proof. intros I N. destruct (contains needle t) eqn:E; [|reflexivity]. exfalso. apply N. apply (contains_in _ _ E c I). Qed.
Lemma not_in_class (f : ascii -> bool) c w : f c = false -> Forall (fun c => f c = true) w -> ~ In c w.
Proof. intros E F I. rewrite Forall_forall in F. specialize (F c I). congruence. Qed.

Lemma words_table_find w : tbl_find w INTEGER_WORDS = None -> ~ In w (map (fun x => bs (fst x)) number_words).
Proof. intros H I. cbn in I. decompose [or] I; try contradiction; subst w; discriminate. Qed.
Lemma words_table_some w v : tbl_find w INTEGER_WORDS = Some v -> exists x, w = bs x /\ In (x, v) number_words.
Proof.
  intros H. unfold INTEGER_WORDS in H. cbn [tbl_find map] in H.
  repeat match type of H with (if beq w ?b then _ else _) = _ => destruct (beq w b) eqn:?E; [match goal with E : beq w b = true |- _ => apply beq_eq in E; injection H as <-; eexists; split; [exact E|cbn; tauto] end|clear E] end.
  discriminate.
Qed.
Lemma word_len w : lang true wk_word w -> Forall (fun c => is_word c = true) w /\ (3 <= List.length w <= 9)%nat.
Proof. intros L. destruct (word_chars w L) as [A B]. split; [exact A|]. split; [exact B|]. apply (max_len_ok _ _ _ 9%nat L). vm_compute. reflexivity. Qed.

(** what a match says *)
Definition week_said (t : moment) (tx : bytes) (res : result) : Prop :=
  let p := r_start res in
  untouched [WDay; Hour; Min; Sec; TzOffset] p /\
  ((exists sp, tx = bs "this" ++ sp ++ bs "week" /\ blanks sp /\ date_implied p (mdate t)) \/
   (exists kw s s1 n k s2 ws c, tx = kw ++ s1 ++ n ++ s2 ++ ws /\ way kw s /\ blanks s1 /\ s1 <> [] /\ weeks_said n k /\ blanks s2 /\ week_word ws /\
      days_after (s * (7 * k)) (mdate t) c /\ real_date c /\ date_implied p c)).

Lemma week_means e g tx m t us idx g' res texts : real_instant t us -> low tx -> search true week_re tx = Some m -> table_inv texts g ->
  week_extract e g tx m (ptime_of t us) idx = (g', Ret res) ->
  week_said t (m_str m) res /\ r_text res = m_str m /\ r_index res = u32 idx /\ has_end res = false.
Proof.
  intros H Lw S Ti X. unfold week_extract in X. rewrite (pt_date_of _ _ H) in X.
  destruct (week_count g m) as [g1 o] eqn:W. apply (f_equal snd) in X. cbv beta iota zeta delta [snd] in X. apply bind_ret in X as (k & -> & X). cbv zeta in X.
  apply imply_ymd_inv in X as (c & R & Ec & ->). cbn [on_start with_start r_start r_text r_index res_new has_end r_hasend].
  split; [|repeat split]. split; [repeat constructor|].
  destruct (week_match tx m S Lw) as [(sp & E & B & G2 & G3 & G4)|(kw & s1 & n & s2 & ws & E & K & B1 & N1 & B2 & Ww & G2 & Q)].
  - left. exists sp. split; [exact E|]. split; [exact B|]. rewrite G2, E in Ec.
    rewrite (contains_without (bs "last") _ "a"%char) in Ec; [|cbn; tauto|]. rewrite (contains_without (bs "next") _ "n"%char) in Ec; [|cbn; tauto|].
    + assert (mdate t = c) as <- by (apply rd_inj; [apply H|apply R|unfold dn_of in Ec; lia]). repeat split.
    + intros I. apply in_app_or in I as [I|I]; [cbn in I; intuition discriminate|]. apply in_app_or in I as [I|I]; [|cbn in I; intuition discriminate]. revert I. apply (not_in_class is_space); [reflexivity|exact B].
    + intros I. apply in_app_or in I as [I|I]; [cbn in I; intuition discriminate|]. apply in_app_or in I as [I|I]; [|cbn in I; intuition discriminate]. revert I. apply (not_in_class is_space); [reflexivity|exact B].
  - right. unfold week_count in W.
    assert (Wk : weeks_said n k /\ (k = 0 \/ ~ In "a"%char n)).
    { destruct Q as [(-> & G3 & G4)|[(D & Nn & G3 & G4)|(L & G3 & G4)]]; rewrite G3, G4 in W; cbn [is_nil negb] in W.
      - injection W as _ <-. split; [constructor|]. right. auto.
      - destruct n as [|c0 n]; [congruence|]. cbn [is_nil negb] in W. injection W as _ W. rewrite stoi_digits in W by assumption. destruct (INT_MAX <? _); [discriminate|]. injection W as <-.
        split; [constructor; assumption|]. right. apply (not_in_class is_digit); [reflexivity|exact D].
      - assert (Nn : n <> []) by (intros ->; apply min_len_ok in L; cbn in L; lia).
        pose proof (table_value texts g n Ti) as Tv. destruct n as [|c0 n]; [congruence|]. cbn [is_nil negb] in W.
        destruct (gw_index g (c0 :: n)) as [v g2]. cbn [fst] in Tv. injection W as _ <-.
        destruct (tbl_find (c0 :: n) INTEGER_WORDS) as [v'|] eqn:F.
        + subst v. destruct (words_table_some _ _ F) as (x & Ex & I). rewrite Ex. split; [constructor; exact I|]. right. cbn in I. clear - I. 
          decompose [or] I; try contradiction; match goal with E : (_, _) = (_, _) |- _ => injection E as <- <- end; cbn; intuition discriminate.
        + subst v. split; [|left; reflexivity]. destruct (word_len _ L) as [A B]. apply ws_other; auto; [|apply words_table_find; exact F].
          destruct (week_caps tx m S) as [Z|[_ Z]]; [congruence|]. rewrite G4 in Z. exact Z. }
    destruct Wk as [Ws Na]. rewrite G2, E in Ec.
    assert (Fin : exists s, way kw s /\ dn_of (mdate t) + s * (7 * k) = dn_of c).
    { destruct K as [-> | ->].
      - exists (-1). split; [left; auto|]. rewrite contains_start in Ec. unfold add_weeks in Ec. lia.
      - exists 1. split; [right; auto|]. destruct (contains (bs "last") _) eqn:C1.
        + destruct Na as [->|Na]; [unfold add_weeks in Ec; lia|]. exfalso.
          pose proof (contains_in _ _ C1 "a"%char ltac:(cbn; tauto)) as I. apply in_app_or in I as [I|I]; [cbn in I; intuition discriminate|].
          apply in_app_or in I as [I|I]; [revert I; apply (not_in_class is_space); [reflexivity|exact B1]|].
          apply in_app_or in I as [I|I]; [contradiction|]. apply in_app_or in I as [I|I]; [revert I; apply (not_in_class is_space); [reflexivity|exact B2]|].
          destruct Ww as [-> | ->]; cbn in I; intuition discriminate.
        + rewrite contains_start in Ec. unfold add_weeks in Ec. lia. }
    destruct Fin as (s & Hs & Es). exists kw, s, s1, n, k, s2, ws, c. do 7 (split; [assumption|]). split; [apply day_shift; assumption|]. split; [exact R|]. repeat split.
Qed.
