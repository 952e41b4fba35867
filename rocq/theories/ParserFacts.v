(** * ParserFacts: from the results of execute() to matches, and back *)
From Verif Require Import Base Regex RegexParse Calendar Components Utils Execute Spec View ParserSpec CalendarFacts RegexFacts ResultFacts
  ExecuteFacts ParserRe MatchFacts FuelFacts LocateFacts Main.
From Coq Require Import ZifyBool ZifyNat ZifyN.
Ltac Zify.zify_post_hook ::= Z.div_mod_to_equations.

Lemma pt_date_inv x d : pt_date x = Ret d -> exists c, real_date c /\ d = dn_of c /\ d = x / DAY.
Proof.
  unfold pt_date, pt_daynum. destruct (ymd (x / DAY)) as [[[y m] dd]| | | |] eqn:Y; try discriminate. intros H. injection H as <-.
  apply ymd_inv in Y as [R E]. eauto.
Qed.
Lemma d_year_inv dn y : d_year dn = Ret y -> exists c, real_date c /\ dn = dn_of c /\ y = cy c.
Proof.
  unfold d_year. destruct (ymd dn) as [[[y' m] dd]| | | |] eqn:Y; try discriminate. intros H. injection H as <-.
  apply ymd_inv in Y as [R E]. eauto.
Qed.
Lemma bind_ret {A B} (o : outcome A) (f : A -> outcome B) b : bind o f = Ret b -> exists a, o = Ret a /\ f a = Ret b.
Proof. destruct o; try discriminate. eauto. Qed.

(** every result comes from a match *)
Lemma results_from e p g text ref rs res r : sane e -> In p all_parsers -> compile (p_pattern p) = Some r ->
  x_res (execute e p g text ref) = Ret rs -> In res rs ->
  exists off m g0 g1 r0, search true r (skipn off (to_lower text)) = Some m /\ low (skipn off (to_lower text)) /\
    p_extract p e g0 (skipn off (to_lower text)) m ref (Z.of_nat (off + m_pos m)) = (g1, Ret r0) /\
    hasPossibleDates r0 = true /\ res = res_copy r0.
Proof.
  intros He Ip C H I. destruct (execute_in _ _ _ _ _ _ _ He (nonempty_all p Ip) H I) as (r' & off & m & r0 & C' & g0 & g1 & S & X & P & ->).
  rewrite C in C'. apply some_inj in C'. subst r'. exists off, m, g0, g1, r0. repeat split; auto. apply low_skipn, low_to_lower.
Qed.

(** every match gives an outcome: execute() returns if every extract does *)
Lemma exec_loop_total e p r ref text : (1 <= min_len r)%nat ->
  (forall off m g idx, search true r (skipn off text) = Some m ->
     exists g' res, p_extract p e g (skipn off text) m ref idx = (g', Ret res) /\
     (hasPossibleDates res = true \/ forall n, ev_stale e n = Some n)) ->
  forall fuel off g acc, (off <= List.length text)%nat -> (List.length text - off < fuel)%nat ->
  exists rs, snd (exec_loop fuel e p r g text (skipn off text) ref acc) = Ret rs.
Proof.
  intros Hr Hx. induction fuel as [|fuel IH]; intros off g acc Ho Hf; [lia|]. cbn [exec_loop].
  destruct (search true r (skipn off text)) as [m|] eqn:S; [|cbn; eauto].
  destruct (search_bounds _ _ _ Hr S) as [B1 B2]. rewrite skipn_length in B1.
  replace (m_pos m + List.length text - List.length (skipn off text))%nat with (off + m_pos m)%nat by (rewrite skipn_length; lia).
  destruct (Hx off m g (Z.of_nat (off + m_pos m)) S) as (g' & res & X & P). rewrite X.
  assert (L : (l <- (if hasPossibleDates res then Ret (List.length (m_str m))
                       else _ <- substr_from text (m_pos m + 1) ;; read_stale e (List.length (m_str m))) ;;
                substr_from text (off + m_pos m + l)) = Ret (skipn (off + m_pos m + List.length (m_str m)) text)).
  { destruct (hasPossibleDates res); cbn [bind]; [apply substr_from_ok; lia|]. destruct P as [P|P]; [discriminate|].
    rewrite substr_from_ok by lia. cbn [bind]. unfold read_stale. rewrite P. cbn [bind]. apply substr_from_ok. lia. }
  cbv zeta. rewrite L. apply IH; lia.
Qed.
Lemma execute_total e p r ref text g : (1 <= min_len r)%nat -> compile (p_pattern p) = Some r ->
  (forall off m g idx, search true r (skipn off (to_lower text)) = Some m -> low (skipn off (to_lower text)) ->
     exists g' res, p_extract p e g (skipn off (to_lower text)) m ref idx = (g', Ret res) /\
     (hasPossibleDates res = true \/ forall n, ev_stale e n = Some n)) ->
  exists rs, x_res (execute e p g text ref) = Ret rs.
Proof.
  intros Hr C Hx. unfold execute. rewrite C.
  destruct (exec_loop_total e p r ref (to_lower text) Hr) with (fuel := S (List.length (to_lower text))) (off := 0%nat) (g := g) (acc := @nil result)
    as [rs E]; [|lia|lia|].
  - intros. apply Hx; [assumption|]. apply low_skipn, low_to_lower.
  - cbn [skipn] in E. destruct (exec_loop _ _ _ _ _ _ _ _ _) as [g' o]. cbn [snd] in E. subst o. exists rs. reflexivity.
Qed.

(** an occurrence of the pattern gives at least one result (when nothing throws) *)
Lemma execute_finds e p r ref text g rs pre suf : sane e -> (1 <= min_len r)%nat -> nonempty_pattern p -> compile (p_pattern p) = Some r ->
  (forall off m g g' idx res, search true r (skipn off (to_lower text)) = Some m -> low (skipn off (to_lower text)) ->
     p_extract p e g (skipn off (to_lower text)) m ref idx = (g', Ret res) -> hasPossibleDates res = true) ->
  x_res (execute e p g text ref) = Ret rs ->
  to_lower text = pre ++ suf -> starts_match true r (lastc pre None) suf -> rs <> [].
Proof.
  intros He Hr Hp C Hx H E M. pose proof (execute_scan e p g text ref rs He Hp H) as S. rewrite C in S.
  destruct S as (l & S & ->). destruct (search_complete true r _ _ _ E M) as (m & Sm & _).
  inversion S as [? ? N|? ? m' ? res l' ? S' X Sc]; subst; cbn [skipn] in *; [rewrite Sm in N; discriminate|].
  unfold kept. cbn [map snd filter].
  pose proof (Hx 0%nat m' g _ _ res S' (low_skipn 0 _ (low_to_lower _)) X) as P. rewrite P. discriminate.
Qed.

(** the same for a parser that does not touch the word table: the table is the caller's *)
Lemma scan_in_pure e pat f r text ref off g l g' : scan e {| p_pattern := pat; p_extract := pure_extract f |} r text ref off g l g' ->
  forall o m res, In (o, m, res) l ->
  exists off', search true r (skipn off' text) = Some m /\ o = (off' + m_pos m)%nat /\ f e g (skipn off' text) m ref (Z.of_nat o) = Ret res.
Proof.
  induction 1 as [off g S|off g m g1 res l g' S X Sc IH]; intros o m' res' I; [destruct I|].
  cbn [p_extract] in X. unfold pure_extract in X. injection X as <- X.
  destruct I as [E|I]; [|eauto]. injection E as <- <- <-. exists off. auto.
Qed.
Lemma results_from_pure e pat f g text ref rs res r : sane e -> In {| p_pattern := pat; p_extract := pure_extract f |} all_parsers -> compile pat = Some r ->
  x_res (execute e {| p_pattern := pat; p_extract := pure_extract f |} g text ref) = Ret rs -> In res rs ->
  exists off m r0, search true r (skipn off (to_lower text)) = Some m /\ low (skipn off (to_lower text)) /\
    f e g (skipn off (to_lower text)) m ref (Z.of_nat (off + m_pos m)) = Ret r0 /\
    hasPossibleDates r0 = true /\ res = res_copy r0.
Proof.
  intros He Ip C H I. pose proof (execute_scan _ _ _ _ _ _ He (nonempty_all _ Ip) H) as S. cbn [p_pattern] in S. rewrite C in S.
  destruct S as (l & S & ->). apply kept_in in I as (o & m & r0 & I & P & ->).
  destruct (scan_in_pure _ _ _ _ _ _ _ _ _ _ S _ _ _ I) as (off & Hs & -> & X).
  exists off, m, r0. repeat split; auto. apply low_skipn, low_to_lower.
Qed.
(** every extract outcome is asked for with the caller's table only *)
Lemma exec_loop_total_pure e pat f r ref text g : (1 <= min_len r)%nat ->
  (forall off m idx, search true r (skipn off text) = Some m ->
     exists res, f e g (skipn off text) m ref idx = Ret res /\ (hasPossibleDates res = true \/ forall n, ev_stale e n = Some n)) ->
  forall fuel off acc, (off <= List.length text)%nat -> (List.length text - off < fuel)%nat ->
  exists rs, snd (exec_loop fuel e {| p_pattern := pat; p_extract := pure_extract f |} r g text (skipn off text) ref acc) = Ret rs.
Proof.
  intros Hr Hx. induction fuel as [|fuel IH]; intros off acc Ho Hf; [lia|]. cbn [exec_loop].
  destruct (search true r (skipn off text)) as [m|] eqn:S; [|cbn; eauto].
  destruct (search_bounds _ _ _ Hr S) as [B1 B2]. rewrite skipn_length in B1.
  replace (m_pos m + List.length text - List.length (skipn off text))%nat with (off + m_pos m)%nat by (rewrite skipn_length; lia).
  destruct (Hx off m (Z.of_nat (off + m_pos m)) S) as (res & X & P). cbn [p_extract]. unfold pure_extract at 1. rewrite X.
  assert (L : (l <- (if hasPossibleDates res then Ret (List.length (m_str m))
                       else _ <- substr_from text (m_pos m + 1) ;; read_stale e (List.length (m_str m))) ;;
                substr_from text (off + m_pos m + l)) = Ret (skipn (off + m_pos m + List.length (m_str m)) text)).
  { destruct (hasPossibleDates res); cbn [bind]; [apply substr_from_ok; lia|]. destruct P as [P|P]; [discriminate|].
    rewrite substr_from_ok by lia. cbn [bind]. unfold read_stale. rewrite P. cbn [bind]. apply substr_from_ok. lia. }
  cbv zeta. rewrite L. apply IH; lia.
Qed.
Lemma execute_total_pure e pat f r ref text g : (1 <= min_len r)%nat -> compile pat = Some r ->
  (forall off m idx, search true r (skipn off (to_lower text)) = Some m -> low (skipn off (to_lower text)) ->
     exists res, f e g (skipn off (to_lower text)) m ref idx = Ret res /\
     (hasPossibleDates res = true \/ forall n, ev_stale e n = Some n)) ->
  exists rs, x_res (execute e {| p_pattern := pat; p_extract := pure_extract f |} g text ref) = Ret rs.
Proof.
  intros Hr C Hx. unfold execute. cbn [p_pattern]. rewrite C.
  destruct (exec_loop_total_pure e pat f r ref (to_lower text) g Hr) with (fuel := S (List.length (to_lower text))) (off := 0%nat) (acc := @nil result)
    as [rs E]; [|lia|lia|].
  - intros. apply Hx; [assumption|]. apply low_skipn, low_to_lower.
  - cbn [skipn] in E. destruct (exec_loop _ _ _ _ _ _ _ _ _) as [g' o]. cbn [snd] in E. subst o. exists rs. reflexivity.
Qed.

(** ** texts that are one match *)
Lemma search_whole ic r t : starts_match ic r None t ->
  (forall w post caps, t = w ++ post -> mt ic r (mkst None t []) (mkst (lastc w None) post caps) -> post = []) ->
  exists m, search ic r t = Some m /\ m_pos m = 0%nat /\ m_str m = t.
Proof.
  intros M U. destruct (search_complete ic r t [] t eq_refl M) as (m & S & P). cbn in P. exists m. split; [exact S|]. split; [lia|].
  destruct (search_split _ _ _ _ S) as (pre & post & E & Pp & _ & _ & Mm). destruct pre; [|cbn in Pp; lia]. cbn [app lastc fold_left] in *.
  rewrite <- E in Mm. pose proof (U (m_str m) post _ E Mm) as ->. rewrite app_nil_r in E. auto.
Qed.
Lemma search_nil r : (1 <= min_len r)%nat -> search true r [] = None.
Proof.
  intros Hr. destruct (search true r []) as [m|] eqn:S; [|reflexivity]. pose proof (search_bounds _ _ _ Hr S) as B. cbn in B. lia.
Qed.
Lemma execute_whole e p g text ref r m g' res : compile (p_pattern p) = Some r -> (1 <= min_len r)%nat ->
  search true r (to_lower text) = Some m -> m_pos m = 0%nat -> m_str m = to_lower text ->
  p_extract p e g (to_lower text) m ref 0 = (g', Ret res) -> hasPossibleDates res = true ->
  execute e p g text ref = {| x_words := g'; x_text := to_lower text; x_res := Ret [res_copy res] |}.
Proof.
  intros C Hr S Hp Hs X P. unfold execute. rewrite C. cbn [exec_loop]. rewrite S, Hp, Hs.
  replace (0 + List.length (to_lower text) - List.length (to_lower text))%nat with 0%nat by lia. cbn [Z.of_nat]. rewrite X, P.
  cbn [bind]. rewrite substr_from_ok by lia. rewrite skipn_all2 by lia.
  destruct (List.length (to_lower text)) eqn:L; cbn [exec_loop]; [|rewrite search_nil by exact Hr; reflexivity].
  apply search_bounds in S; [|exact Hr]. rewrite Hs in S. lia.
Qed.
