(** * Times of day are found wherever they stand (C91) *)
From Verif Require Import Base Regex RegexParse Calendar Components Utils Execute Spec View ParserSpec CalendarCycle CalendarFacts RegexFacts ResultFacts
  WeekSpec ExecuteFacts ParserRe MatchFacts LocateFacts HistoryFacts ParserFacts CasualFacts Symbolic Open Template DeadlineFacts AgoFacts WeekFacts FoundFacts Main
  P_CasualTime Prop_Execute Prop_Casual Prop_Ago Prop_Week Prop_Found NumberFacts.
From Coq Require Import ZifyBool ZifyNat ZifyN.
Open Scope string_scope.
Open Scope list_scope.
Open Scope Z_scope.

Definition wordy (u : bytes) : Prop := Forall (fun c => is_word c = true) u.
Lemma word_tok : forall (u v x y : bytes), wordy u -> wordy v -> word_opt (hd_error x) = false -> word_opt (hd_error y) = false -> u ++ x = v ++ y -> u = v /\ x = y.
Proof.
  induction u as [|c u IH]; intros v x y Hu Hv Hx Hy E.
  - destruct v as [|d v]; [auto|]. exfalso. cbn in E. subst x. cbn in Hx. inversion Hv; subst. congruence.
  - destruct v as [|d v]; [exfalso; cbn in E; subst y; cbn in Hy; inversion Hu; subst; congruence|]. cbn in E. injection E as <- E. inversion Hu; inversion Hv; subst.
    destruct (IH v x y) as [-> ->]; auto.
Qed.
Lemma day_word_ok w h : In (w, h) time_of_day -> wordy (bs w) /\ bs w <> [] /\ lang true ct_words (bs w) /\ (forall c r, bs w = c :: r -> is_space c = false /\ c <> "t"%char).
Proof.
  intros I. cbn in I. decompose [or] I; try contradiction; match goal with E : (_, _) = (_, _) |- _ => injection E as <- <- end;
  (split; [repeat constructor|split; [discriminate|split; [cbn [bs list_ascii_of_string]; in_lang|intros c r E; cbn in E; injection E as <- _; split; [reflexivity|discriminate]]]]).
Qed.
Lemma bare_starts o w h post : word_opt o = false -> In (w, h) time_of_day -> word_opt (hd_error post) = false -> starts_match true casual_time_re o (bs w ++ post).
Proof.
  intros Ho I Hp. destruct (day_word_ok w h I) as (Wd & N & L & _).
  exists (mkst (lastc (bs w) o) post [(5%nat, []); (2%nat, bs w); (4%nat, bs w); (1%nat, [])]).
  exists (mkst o (bs w ++ post) [(1%nat, [])]). split.
  { apply mt_WB_intro. unfold wb_at. rewrite Ho. destruct (bs w) as [|c u]; [congruence|]. cbn. inversion Wd; subst. match goal with X : is_word c = true |- _ => rewrite X end. reflexivity. }
  exists (mkst (lastc (bs w) o) post [(2%nat, bs w); (4%nat, bs w); (1%nat, [])]). split.
  { exists (mkst (lastc (bs w) o) post [(4%nat, bs w); (1%nat, [])]). split; [|unfold consumed; cbn [s_rest s_caps s_prev]; do 3 f_equal; rewrite app_length, Nat.add_sub, firstn_app, Nat.sub_diag, firstn_all, app_nil_r; reflexivity].
    exists (mkst o (bs w ++ post) [(1%nat, [])]). split; [left; reflexivity|]. exists (mkst o (bs w ++ post) [(1%nat, [])]). split; [exact (star_nil _ _)|].
    apply mt_grp; [reflexivity|exact L]. }
  apply mt_WB_intro. apply wb_word; [|exact Hp]. destruct (bs w) as [|x u _] using rev_ind; [congruence|]. rewrite lastc_app. cbn. apply Forall_app in Wd as [_ Wd]. inversion Wd; assumption.
Qed.

(** what the casual-time parser says of the word: the reference date, the hour of the table, the minute of the reference *)
Definition day_time_of (t : moment) (h : Z) (res : result) : Prop :=
  has_end res = false /\ date_implied (r_start res) (mdate t) /\ implied_is WDay (weekday (mdate t)) (r_start res) /\ implied_is Hour h (r_start res) /\
  implied_is Min (mmin t) (r_start res) /\ untouched [Sec; TzOffset] (r_start res).

(** A time of day [w] standing anywhere: there is a result whose text ends with it, and begins with nothing but blanks and possibly "this" *)
Theorem C91_times_stand : forall e g text t us pre w h post, sane e -> real_instant t us -> Z.of_nat (List.length text) < 2 ^ 32 ->
  In (w, h) [("morning", 6); ("afternoon", 15); ("evening", 20); ("noon", 12); ("night", 20)] ->
  to_lower text = pre ++ bs w ++ post -> separate pre post ->
  exists rs res y this sp, x_res (execute e casual_time g text (ptime_of t us)) = Ret rs /\ In res rs /\
    pre = y ++ this ++ sp /\ (this = [] \/ this = bs "this") /\ blanks sp /\ stands res y (this ++ sp ++ bs w) /\ day_time_of t h res.
Proof.
  intros e g text t us pre w h post He H Hn I E Sp. change (In (w, h) time_of_day) in I. destruct (C20_casual_times e g text t us H) as (rs & X & _). exists rs.
  pose proof (separate_after _ (proj2 Sp)) as Hp.
  destruct (found_over e casual_time casual_time_re (ptime_of t us) text g rs pre (bs w ++ post) He in_casual_time locates_casual_time casual_time_compile Hn E)
    as (k & y & a & b & v & m & g0 & g1 & res & Ey & Eb & Nb & Em & Lk & Sm & Lo & R & Xr & Ix & Tx & Kp & _).
  - intros k _. apply (bare_starts _ w h); [apply lastc_skipn_word; apply Sp|exact I|exact Hp].
  - exact X.
  - cbn [p_extract casual_time] in Xr. unfold pure_extract in Xr. injection Xr as _ Xr.
    destruct (casual_time_extracted e g0 _ _ _ _ (Z.of_nat (List.length y)) H Lo Sm) as (r1 & X1 & (this & sp & w' & h' & A1 & A2 & A3 & A4 & A5 & A6 & A7 & A8 & A9) & T & _ & F & _).
    rewrite X1 in Xr. apply RelativeFacts.ret_inj in Xr. subst r1.
    destruct (day_word_ok w h I) as (Wd & Nw & _ & Hw). destruct (day_word_ok w' h' A4) as (Wd' & Nw' & _ & _).
    assert (Hv : word_opt (hd_error v) = false).
    { apply rm_sound in R as ([q t' cc] & M & Ek). apply some_inj in Ek. injection Ek as -> -> ->. unfold casual_time_re in M. destruct M as (z1 & _ & z2 & _ & M3). destruct z2 as [z2p z2r z2c].
      apply mt_WB in M3 as [Wb Ez]. injection Ez as E1 E2 _. apply (wb_end z2p); [|rewrite E2; exact Wb]. rewrite <- E1, A1, !lastc_app. clear - Wd' Nw'.
      destruct (bs w') as [|x u _] using rev_ind; [congruence|]. rewrite lastc_app. cbn. apply Forall_app in Wd' as [_ Wd']. inversion Wd'; assumption. }
    assert (Hb : forall c z, b = c :: z -> is_space c = false /\ c <> "t"%char).
    { intros c z Ec. rewrite Ec in Eb. destruct (bs w) as [|c0 w0] eqn:Ew; [congruence|]. cbn in Eb. injection Eb as -> _. apply (Hw c w0). reflexivity. }
    assert (Ha : forall x c, a = x ++ [c] -> is_word c = false) by (intros x c Ea; apply (proj1 Sp (y ++ x)); rewrite Ey, Ea, app_assoc; reflexivity).
    assert (Ew : a = this ++ sp /\ b = bs w').
    { rewrite Em in A1. destruct a as [|a0 a].
      - cbn [app] in A1. destruct A2 as [-> | ->]; [|exfalso; destruct (Hb _ _ A1); congruence]. cbn [app] in *. destruct sp as [|s0 sp]; [auto|]. exfalso. destruct (Hb _ _ A1) as [Q _]. inversion A3; subst. congruence.
      - apply cut_word in A1 as (a1 & Ea & A1 & _); [|destruct A2 as [-> | ->]; repeat constructor|exact Ha|discriminate]. rewrite Ea in Ha |- *. pose proof (ends_app _ _ Ha) as Ha1.
        apply cut_blank in A1 as (a2 & -> & A1); [|exact A3|intros c z Ec; apply (Hb c z Ec)|exact Nb]. pose proof (ends_app _ _ Ha1) as Ha2.
        destruct a2 as [|x a2]; [rewrite app_nil_r; auto|]. exfalso. destruct (cut_word (bs w') [] (x :: a2) b) as (a3 & _ & E3 & N3); [exact Wd'|exact Ha2|discriminate|rewrite app_nil_r; exact A1|].
        apply app_eq_nil in E3 as [-> _]. congruence. }
    destruct Ew as [-> ->]. destruct (word_tok (bs w) (bs w') post v Wd Wd' Hp Hv Eb) as [Ew _].
    assert (h' = h) as ->.
    { clear - Ew I A4. cbn in I, A4. decompose [or] I; try contradiction; match goal with E : (_, _) = (_, _) |- _ => injection E as <- <- end;
      decompose [or] A4; try contradiction; match goal with E : (_, _) = (_, _) |- _ => injection E as <- <- end; try reflexivity; discriminate. }
    exists (res_copy res), y, this, sp. split; [exact X|]. split; [apply Kp; eapply date_implied_possible; [apply H|exact A5]|]. split; [exact Ey|]. split; [exact A2|]. split; [exact A3|].
    split; [split; [exact Ix|change (r_text (res_copy res)) with (r_text res); rewrite Tx, A1, Ew; reflexivity]|].
    split; [exact F|]. split; [exact A5|]. split; [exact A6|]. split; [exact A7|]. split; [exact A8|exact A9].
Qed.
Print Assumptions C91_times_stand.

(** With "this" before it the result stands exactly there *)
Lemma ct_blank : class_alike true casual_time_re is_space " " = true. Proof. vm_compute. reflexivity. Qed.
Definition ct_items (w : string) (sp : bytes) : list sitem := cased (bs "this") (bs "this") ++ run sp " " ++ cased (bs w) (bs w).
Lemma ct_takes w h sp : In (w, h) time_of_day -> exists c, takes_all apart casual_time_re (ct_items w sp) c.
Proof.
  intros I. cbn in I. decompose [or] I; try contradiction; match goal with E : (_, _) = (_, _) |- _ => injection E as <- <- end;
  destruct sp as [|b sp]; (eexists; intros p [-> | -> ]; (eexists; split; [vm_compute; reflexivity|split; vm_compute; reflexivity])).
Qed.
Lemma ct_apart : no_straddle [outside; among (bs "t"); among (bs "h")] casual_time_re = true.
Proof. vm_compute. reflexivity. Qed.
Theorem C91_this_time_stands : forall e g text t us pre sp w h post, sane e -> real_instant t us -> Z.of_nat (List.length text) < 2 ^ 32 ->
  In (w, h) [("morning", 6); ("afternoon", 15); ("evening", 20); ("noon", 12); ("night", 20)] -> blanks sp ->
  to_lower text = pre ++ (bs "this" ++ sp ++ bs w) ++ post -> separate pre post ->
  exists rs res, x_res (execute e casual_time g text (ptime_of t us)) = Ret rs /\ In res rs /\ stands res pre (bs "this" ++ sp ++ bs w) /\ day_time_of t h res.
Proof.
  intros e g text t us pre sp w h post He H Hn I B E Sp. change (In (w, h) time_of_day) in I. destruct (C20_casual_times e g text t us H) as (rs & X & _). exists rs.
  destruct (ct_takes w h sp I) as (c & Tk).
  assert (Et : items_text (ct_items w sp) = bs "this" ++ sp ++ bs w) by (unfold ct_items; rewrite !items_text_app, run_text, !self_text; reflexivity).
  destruct (phrase_at e casual_time casual_time_re (ptime_of t us) text g rs pre post (ct_items w sp) c apart outside [among (bs "t"); among (bs "h")] (bs "th") (bs "is" ++ sp ++ bs w ++ post)
    He in_casual_time locates_casual_time casual_time_compile Hn) as (tx & m & g0 & g1 & res & A1 & A2 & A3 & A4 & A5 & A6 & A7 & A8 & _).
  - rewrite Et. exact E.
  - exact Sp.
  - eapply separate_tail; exact Sp.
  - exact Tk.
  - unfold ct_items. apply Forall_app; split; [apply self_ok|]. apply Forall_app; split; [apply (run_items_ok _ _ _ _ ct_blank B)|apply self_ok].
  - exact ct_apart.
  - cbn. lia.
  - intros a y Ea. unfold outside. destruct Sp as [Sa _]. rewrite (Sa a y Ea). reflexivity.
  - repeat constructor.
  - rewrite Et, <- !app_assoc. reflexivity.
  - exact X.
  - cbn [p_extract casual_time] in A5. unfold pure_extract in A5. injection A5 as _ Xr.
    destruct (casual_time_extracted e g0 _ _ _ _ (Z.of_nat (List.length pre)) H A2 A1) as (r1 & X1 & (this & sp' & w' & h' & B1 & B2 & B3 & B4 & B5 & B6 & B7 & B8 & B9) & T & _ & F & _).
    rewrite X1 in Xr. apply RelativeFacts.ret_inj in Xr. subst r1.
    destruct (day_word_ok w h I) as (Wd & Nw & _ & Hw). destruct (day_word_ok w' h' B4) as (Wd' & Nw' & _ & Hw').
    rewrite A3, Et in B1. assert (Ew : bs w = bs w').
    { destruct B2 as [-> | ->].
      - exfalso. cbn [app] in B1. destruct sp' as [|x sp']; [cbn [app] in B1; destruct (Hw' _ _ (eq_sym B1)); congruence|]. cbn in B1. injection B1 as <- _. inversion B3; subst; discriminate.
      - apply app_inv_head in B1. apply blank_tok in B1 as [_ B1]; [exact B1|exact B|exact B3| |].
        + destruct (bs w); [congruence|]. cbn. eapply Hw. reflexivity.
        + destruct (bs w'); [congruence|]. cbn. eapply Hw'. reflexivity. }
    assert (h' = h) as ->.
    { clear - Ew I B4. cbn in I, B4. decompose [or] I; try contradiction; match goal with E : (_, _) = (_, _) |- _ => injection E as <- <- end;
      decompose [or] B4; try contradiction; match goal with E : (_, _) = (_, _) |- _ => injection E as <- <- end; try reflexivity; discriminate. }
    exists (res_copy res). split; [exact X|]. split; [apply A8; eapply date_implied_possible; [apply H|exact B5]|].
    split; [split; [exact A6|change (r_text (res_copy res)) with (r_text res); congruence]|].
    split; [exact F|]. split; [exact B5|]. split; [exact B6|]. split; [exact B7|]. split; [exact B8|exact B9].
Qed.
Print Assumptions C91_this_time_stands.

(** the hypotheses are met: two times of day in one sentence *)
Example C91_case : exists r1 r2, let t := Moment (Cal 2024 2 29) 9 41 7 in real_instant t 0 /\ separate (bs "not at noon but ") (bs ".") /\ separate (bs "not at ") (bs " but this evening.") /\
  x_res (execute strict_env casual_time gwords_init (bs "Not at NOON but This Evening.") (ptime_of t 0)) = Ret [r1; r2] /\
  stands r1 (bs "not at") (bs " noon") /\ toDate r1 = Ret (bs "2024-Feb-29 12:41:00") /\ stands r2 (bs "not at noon but ") (bs "this evening") /\ toDate r2 = Ret (bs "2024-Feb-29 20:41:00").
Proof.
  eexists. eexists. cbv zeta. split; [inst|]. split; [apply separate_dec; reflexivity|]. split; [apply separate_dec; reflexivity|].
  split; [vm_compute; reflexivity|]. split; [split; vm_compute; reflexivity|]. split; [vm_compute; reflexivity|]. split; [split; vm_compute; reflexivity|vm_compute; reflexivity].
Qed.
