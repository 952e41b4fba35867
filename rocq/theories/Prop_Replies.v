(** * More answers of the program (C76-C79): weeks, clock times, months *)
From Verif Require Import Base Regex RegexParse Calendar Components Utils Execute Spec View ParserSpec PhraseSpec WeekSpec ClockSpec CalendarCycle CalendarFacts RegexFacts ResultFacts
  ExecuteFacts ParserRe MatchFacts FuelFacts LocateFacts HistoryFacts ParserFacts CasualFacts OverlapFacts MergeFacts Refiners DeadlineFacts ClockFacts NumberFacts Main MainFacts Alphabet.
From Verif Require Import P_CasualDate P_CasualTime P_DayOfWeek P_Deadline P_ISO P_MonthName P_MiddleEndian
  P_TimeAgo P_TimeLater P_TimeExpression P_Holiday P_Week Prop_Execute Prop_Casual Prop_Refine Prop_Main Prop_Tags Prop_Month Prop_Week Prop_Clock Prop_Answers.
From Coq Require Import ZifyBool ZifyNat.
Open Scope string_scope.
Open Scope list_scope.
Open Scope Z_scope.

(** ** Words in which "in" is not followed by a blank *)
Lemma gap_split f a mid b x y : f <> [] -> Forall (fun c => is_lower c = true) f -> mid <> [] -> Forall (fun c => is_lower c = false) mid ->
  a ++ mid ++ b = x ++ f ++ y -> (exists l, a = x ++ f ++ l /\ y = l ++ mid ++ b) \/ (exists l, b = l ++ f ++ y).
Proof.
  intros Nf Lf Nm Lm E.
  destruct (Nat.le_gt_cases (List.length x + List.length f) (List.length a)) as [Q|Q].
  - left. rewrite (app_assoc x) in E. apply app_eq_app in E as (l & [(-> & E')|(E & E')]); [exists l; rewrite <- app_assoc; auto|].
    apply (f_equal (@List.length _)) in E as E2. rewrite !app_length in E2. destruct l; [|cbn [List.length] in E2; lia]. rewrite app_nil_r in E. exists []. rewrite app_nil_r. cbn [app] in *. subst; auto.
  - right. destruct (Nat.le_gt_cases (List.length a + List.length mid) (List.length x)) as [P|P].
    + rewrite app_assoc in E. apply app_eq_app in E as (l & [(E & E')|(-> & ->)]).
      * apply (f_equal (@List.length _)) in E as E2. rewrite !app_length in E2. destruct l; [|cbn [List.length] in E2; lia]. exists []. symmetry. exact E'.
      * exists l. reflexivity.
    + exfalso. assert (0 < List.length mid)%nat by (destruct mid; [congruence|cbn [List.length]; lia]). assert (0 < List.length f)%nat by (destruct f; [congruence|cbn [List.length]; lia]).
      set (i := Nat.max (List.length a) (List.length x)).
      assert (Hm : exists c, nth_error (a ++ mid ++ b) i = Some c /\ In c mid).
      { rewrite nth_error_app2 by lia. rewrite nth_error_app1 by lia. destruct (nth_error mid (i - List.length a)) as [c|] eqn:En; [|apply nth_error_None in En; lia].
        exists c. split; [reflexivity|]. apply nth_error_In in En. exact En. }
      assert (Hf : exists c, nth_error (x ++ f ++ y) i = Some c /\ In c f).
      { rewrite nth_error_app2 by lia. rewrite nth_error_app1 by lia. destruct (nth_error f (i - List.length x)) as [c|] eqn:En; [|apply nth_error_None in En; lia].
        exists c. split; [reflexivity|]. apply nth_error_In in En. exact En. }
      destruct Hm as (c & H1 & I1), Hf as (d & H2 & I2). rewrite E in H1. rewrite H1 in H2. injection H2 as ->.
      rewrite Forall_forall in Lf, Lm. specialize (Lf d I2). specialize (Lm d I1). congruence.
Qed.
Definition ends_in (f w : bytes) : bool := starts_with (rev f) (rev w).
Lemma ends_app x f : ends_in f (x ++ f) = true.
Proof. unfold ends_in. rewrite rev_app_distr. apply starts_app. Qed.
Lemma worded_end G L f t c : (forall c, In c G -> is_lower c = false) -> f <> [] -> forallb is_lower f = true -> plainb L = true -> forallb (fun w => negb (ends_in f (bs w))) L = true -> is_lower c = false -> worded_by G L t ->
  ~ occurs (f ++ [c]) t.
Proof.
  intros Hg Nf Lf P N Nc W. unfold plainb in P. rewrite forallb_forall in P, N.
  assert (C : forall w x l y, In w L -> bs w = x ++ f ++ l -> l = [] \/ l <> c :: y).
  { intros w x l y I E. destruct l as [|d l]; [auto|]. right. intros Q. injection Q as -> ->. specialize (P w I). rewrite forallb_forall in P. specialize (P c). rewrite P in Nc; [discriminate|].
    rewrite E. apply in_or_app. right. apply in_or_app. right. left. reflexivity. }
  assert (D : forall w x, In w L -> bs w <> x ++ f).
  { intros w x I E. specialize (N w I). rewrite E, ends_app in N. discriminate. }
  induction W as [w I|w sep t I Ns Fs W IH]; intros (x & y & E); rewrite <- app_assoc in E; cbn [app] in E.
  - destruct (C w x (c :: y) y I E); congruence.
  - apply gap_split in E as [(l & E & E')|(l & E)]; auto.
    + destruct (C w x l (match l with [] => [] | _ :: y => y end) I E) as [-> | Q]; [rewrite app_nil_r in E; exact (D w x I E)|].
      destruct l as [|d l]; [rewrite app_nil_r in E; exact (D w x I E)|]. cbn [app] in E'. injection E' as <- _. apply Q. reflexivity.
    + apply IH. exists l, y. rewrite <- app_assoc. exact E.
    + apply Forall_forall. apply forallb_forall. exact Lf.
    + eapply Forall_impl; [|exact Fs]. cbn. exact Hg.
Qed.
Lemma no_in_no_deadline G L text : (forall c, In c G -> is_lower c = false) -> plainb L = true -> forallb (fun w => negb (ends_in (bs "in") (bs w))) L = true -> worded_by G L (to_lower text) -> silent text deadline.
Proof.
  intros Hg P N W. unfold silent. rewrite deadline_compile.
  destruct (search true deadline_re (to_lower text)) as [m|] eqn:Es; [|reflexivity]. exfalso.
  destruct (deadline_match _ _ Es) as (pre & post & kw & s1 & n & s2 & u & E & _ & Em & Lk & B1 & N1 & _).
  assert (K : exists x, kw = x ++ bs "in").
  { assert (Lo : low kw) by (pose proof (low_to_lower text) as Lo; rewrite E, Em in Lo; unfold low in *; rewrite !Forall_app in Lo; tauto).
    destruct (kw_words kw Lo Lk) as [-> | ->]; [exists []|exists (bs "with")]; reflexivity. }
  destruct K as [x ->]. destruct s1 as [|c s1]; [congruence|]. inversion B1; subst.
  apply (worded_end G L (bs "in") (to_lower text) c); auto using not_lower_space; [discriminate|].
  rewrite E, Em. apply occurs_app_r, occurs_app_l. exists x, (s1 ++ n ++ s2 ++ u). rewrite <- !app_assoc. reflexivity.
Qed.

(** ** C76: weeks *)
Definition week_words : list string := ["last"; "next"; "this"; "week"; "weeks"; "thisweek"] ++ map fst number_words.
Definition not_week : list parser := [casual_time; day_of_week; casual_date; middle_endian; time_later; month_name; time_ago; iso; holiday].
Lemma week_quiet : quietb week_words not_week = true. Proof. vm_compute. reflexivity. Qed.
Lemma in_week_parsers : In week parsers. Proof. unfold parsers. do 11 right. left. reflexivity. Qed.
Lemma week_answer e sortf text t us res Cs v : steady_reads e -> is_sort sortf -> real_instant t us -> Z.of_nat (List.length text) < 2 ^ 32 ->
  worded week_words (to_lower text) -> In Cs [[bs "l"]; [bs "n"; bs "e"]; [bs "t"; bs "h"]] -> begins Cs (to_lower text) v ->
  alone e week text (ptime_of t us) = Ret [res] -> r_text res = to_lower text -> r_index res = 0 ->
  main e sortf gwords_init text (ptime_of t us) = shown (toDate res).
Proof.
  intros He Hs H Hn W Ic B X Tx Ix.
  pose proof (quiet_text week_words not_week text week_quiet ltac:(vm_compute; reflexivity) W) as Q.
  apply (whole_answer e sortf text _ [casual_time; deadline; day_of_week; casual_date; middle_endian; time_later; month_name; time_ago; time_expression; iso; holiday] week [] res eq_refl); auto using steady_sane.
  assert (Cm : minor e text (ptime_of t us) time_expression).
  { apply (clock_minor e week_words text t us Cs v); auto.
    destruct Ic as [<- | [<- | [<- | []]]]; vm_compute; reflexivity. }
  assert (Dm : minor e text (ptime_of t us) deadline) by (apply silent_minor, (no_in_no_deadline gap_chars week_words); auto using gap_not_lower; vm_compute; reflexivity).
  assert (Q' : Forall (minor e text (ptime_of t us)) not_week) by (eapply Forall_impl; [|exact Q]; intros p; apply silent_minor).
  rewrite Forall_forall in *. intros p Ip. cbn [app In] in Ip. assert (D : deadline = p \/ time_expression = p \/ In p not_week) by (unfold not_week; cbn [In]; tauto).
  destruct D as [<- | [<- | D]]; auto.
Qed.
Theorem C76_weeks : forall e sortf text t us kw s s1 n s2 k ws c, steady_reads e -> is_sort sortf -> real_instant t us -> Z.of_nat (List.length text) < 2 ^ 32 ->
  to_lower text = kw ++ s1 ++ n ++ s2 ++ ws -> way kw s -> blanks s1 -> s1 <> [] -> week_amount n s2 k -> week_word ws ->
  days_after (s * (7 * k)) (mdate t) c -> real_date c ->
  main e sortf gwords_init text (ptime_of t us) = Ret (line (bs (written (Moment c 0 0 0)))).
Proof.
  intros e sortf text t us kw s s1 n s2 k ws c He Hs H Hn E K B1 N1 A Ww D R.
  destruct (C38_week_phrase e [] text t us kw s s1 n s2 k ws c ltac:(intros x []) H E K B1 N1 A Ww D R) as (res & X & Tx & Ix & En & Di & U).
  assert (Bg : forall sp, blanks sp -> Forall (fun c => In c gap_chars) sp) by (intros sp B; eapply Forall_impl; [|exact B]; cbn; apply gap_space).
  assert (K' : exists w Cs v, kw = bs w /\ In w week_words /\ In Cs [[bs "l"]; [bs "n"; bs "e"]; [bs "t"; bs "h"]] /\ begins Cs (to_lower text) v).
  { rewrite E. destruct K as [[-> _]|[-> _]].
    - exists "last", [bs "l"]. eexists. split; [reflexivity|]. split; [cbn; tauto|]. split; [cbn; tauto|]. constructor; [cbn; tauto|]. constructor.
    - exists "next", [bs "n"; bs "e"]. eexists. split; [reflexivity|]. split; [cbn; tauto|]. split; [cbn; tauto|]. constructor; [cbn; tauto|]. constructor; [cbn; tauto|]. constructor. }
  assert (W' : exists w, ws = bs w /\ In w week_words) by (destruct Ww as [-> | ->]; eexists; (split; [reflexivity|cbn; tauto])).
  destruct K' as (w & Cs & v & -> & Iw & Ics & B). destruct W' as (w' & -> & Iw').
  assert (W : worded week_words (to_lower text)).
  { rewrite E. destruct A as [|n s2 Dn Nn B2 Lm|x k s2 Ix2 B2 N2].
    - cbn [app]. constructor; auto. constructor. exact Iw'.
    - rewrite (app_assoc n s2), (app_assoc s1). constructor; auto; [destruct s1; [congruence|discriminate]| |constructor; exact Iw'].
      apply Forall_app. split; [auto|]. apply Forall_app. split; [|auto]. eapply Forall_impl; [|exact Dn]. cbn. apply gap_digit.
    - constructor; auto. constructor; auto; [apply in_or_app; right; apply (in_map fst) in Ix2; exact Ix2|]. constructor. exact Iw'. }
  rewrite (week_answer e sortf text t us res Cs v); auto.
  apply (shown_moment e week text (ptime_of t us)); auto using steady_sane, midnight_denotes, midnight_real, in_week_parsers.
Qed.
Print Assumptions C76_weeks.
(** "this week" is the reference day *)
Theorem C76_this_week : forall e sortf text t us sp, steady_reads e -> is_sort sortf -> real_instant t us -> Z.of_nat (List.length text) < 2 ^ 32 ->
  to_lower text = bs "this" ++ sp ++ bs "week" -> blanks sp ->
  main e sortf gwords_init text (ptime_of t us) = Ret (line (bs (written (Moment (mdate t) 0 0 0)))).
Proof.
  intros e sortf text t us sp He Hs H Hn E B.
  destruct (C38_this_week e gwords_init text t us sp H E B) as (res & X & Tx & Ix & En & Di & U).
  assert (Bb : exists v, begins [bs "t"; bs "h"] (to_lower text) v).
  { eexists. rewrite E. constructor; [cbn; tauto|]. constructor; [cbn; tauto|]. constructor. }
  destruct Bb as [v Bv].
  assert (W : worded week_words (to_lower text)).
  { rewrite E. destruct sp as [|c sp]; [apply (wd_one week_words "thisweek"); cbn; tauto|].
    apply (wd_gap week_words "this"); [cbn; tauto|discriminate| |apply (wd_one week_words "week"); cbn; tauto].
    eapply Forall_impl; [|exact B]. cbn. apply gap_space. }
  rewrite (week_answer e sortf text t us res [bs "t"; bs "h"] v); auto; [|cbn; tauto].
  apply (shown_moment e week text (ptime_of t us)); auto using steady_sane, midnight_denotes, in_week_parsers. apply midnight_real. apply H.
Qed.
Print Assumptions C76_this_week.
Example C76_case : let t := Moment (Cal 2024 2 20) 5 6 7 in steady_reads env0 /\ is_sort sort_other /\ real_instant t 1 /\
  to_lower (bs "NEXT Twelve  weeks") = bs "next" ++ bs " " ++ bs "twelve" ++ bs "  " ++ bs "weeks" /\ way (bs "next") 1 /\
  week_amount (bs "twelve") (bs "  ") 12 /\ week_word (bs "weeks") /\ days_after (1 * (7 * 12)) (Cal 2024 2 20) (Cal 2024 5 14) /\ real_date (Cal 2024 5 14) /\
  main env0 sort_other gwords_init (bs "NEXT Twelve  weeks") (ptime_of t 1) = Ret (line (bs "2024-May-14 00:00:00")) /\
  main env0 sort_stable gwords_init (bs "last 3 weeks") (ptime_of t 1) = Ret (line (bs "2024-Jan-30 00:00:00")).
Proof.
  cbv zeta. split; [intros n; reflexivity|]. split; [exact other_is_sort|]. split; [inst|]. split; [reflexivity|]. split; [right; auto|].
  split; [apply (wa_word "twelve" 12 (bs "  ")); [cbn; auto 20|repeat constructor|discriminate]|]. split; [right; reflexivity|]. split; [concrete|]. split; [inst|].
  split; vm_compute; reflexivity.
Qed.

(** ** C77: clock times *)
Definition clock_words : list string := [""; "at"; "from"; "a"; "p"; "am"; "pm"; "m"; "o"; "clock"; "oclock"].
Definition not_clock : list parser := [casual_time; day_of_week; casual_date; middle_endian; time_later; month_name; time_ago; iso; holiday; week].
Lemma clock_quiet : quietb clock_words not_clock = true. Proof. vm_compute. reflexivity. Qed.
Lemma in_clock_parsers : In time_expression parsers. Proof. unfold parsers. do 8 right. left. reflexivity. Qed.
Definition gaps (s : bytes) : Prop := Forall (fun c => In c gap_chars) s.
Lemma gaps_lit s : forallb is_gap s = true -> gaps s.
Proof. intros H. apply Forall_forall. intros c I. rewrite forallb_forall in H. apply gap_in, H, I. Qed.
Lemma gaps_digits s : digits s -> gaps s.
Proof. intros D. eapply Forall_impl; [|exact D]. cbn. apply gap_digit. Qed.
Lemma gaps_app a b : gaps a -> gaps b -> gaps (a ++ b). Proof. intros A B. apply Forall_app. auto. Qed.
Lemma gaps_spaced s : spaced s -> gaps s.
Proof. intros D. eapply Forall_impl; [|exact D]. cbn. intros c ->. apply gap_space. reflexivity. Qed.
Lemma dot_colon_gaps a : dot_or_colon a -> gaps a. Proof. intros [-> | [-> | ->]]; apply gaps_lit; vm_compute; reflexivity. Qed.
Lemma minutes_gaps (sm : bytes -> Prop) p mm ss : (forall b, sm b -> dot_or_colon b) -> minutes_part sm p mm ss -> gaps p.
Proof.
  intros Hs M. destruct M as [|a mm Ha Dm _|a mm b ss f Ha Dm _ Hb Ds _ Hf]; [constructor|auto using gaps_app, dot_colon_gaps, gaps_digits|].
  repeat apply gaps_app; auto using dot_colon_gaps, gaps_digits. destruct Hf as [-> | (fr & -> & Df & _)]; [constructor|]. apply gaps_app; [apply gaps_lit; reflexivity|apply gaps_digits; exact Df].
Qed.
Lemma mark_worded w0 sep q k : In w0 clock_words -> sep <> [] -> gaps sep -> mark_phrase marks q k -> worded clock_words (bs w0 ++ sep ++ q).
Proof.
  intros Iw0 Ns G M.
  assert (W : forall s, s <> [] -> gaps s -> forall w m, In (w, m) marks -> worded clock_words (bs w0 ++ s ++ bs w)).
  { clear - Iw0. intros s Ns G w m I. assert (E : forall x, worded clock_words x -> worded clock_words (bs w0 ++ s ++ x)) by (intros x Wx; apply (wd_gap clock_words w0 s x); [exact Iw0|exact Ns|exact G|exact Wx]).
    apply E. clear E. cbn [In marks] in I. assert (O : forall w, In w clock_words -> worded clock_words (bs w)) by (intros; constructor; assumption).
    assert (T : forall a g r, In a clock_words -> bs g <> [] -> forallb is_gap (bs g) = true -> worded clock_words (bs r) -> worded clock_words (bs a ++ bs g ++ bs r)) by (intros; constructor; auto using gaps_lit; apply gaps_lit; assumption).
    assert (I0 : forall x, existsb (String.eqb x) clock_words = true -> In x clock_words) by (intros x Q; apply existsb_exists in Q as (y & Iy & Q); apply String.eqb_eq in Q; subst; exact Iy).
    decompose [or] I; try contradiction; match goal with Q : (_, _) = (_, _) |- _ => injection Q as <- <- end.
    - apply O, I0; reflexivity.
    - apply O, I0; reflexivity.
    - apply (T "a" "." "m"); [apply I0; reflexivity|discriminate|reflexivity|]. apply O, I0; reflexivity.
    - apply (T "a" "." "m."); [apply I0; reflexivity|discriminate|reflexivity|]. apply (T "m" "." ""); [apply I0; reflexivity|discriminate|reflexivity|]. apply O, I0; reflexivity.
    - apply O, I0; reflexivity.
    - apply O, I0; reflexivity.
    - apply (T "p" "." "m"); [apply I0; reflexivity|discriminate|reflexivity|]. apply O, I0; reflexivity.
    - apply (T "p" "." "m."); [apply I0; reflexivity|discriminate|reflexivity|]. apply (T "m" "." ""); [apply I0; reflexivity|discriminate|reflexivity|]. apply O, I0; reflexivity.
    - apply (T "o" "'" "clock"); [apply I0; reflexivity|discriminate|reflexivity|]. apply O, I0; reflexivity.
    - apply O, I0; reflexivity.
    - apply (T "o" " " "clock"); [apply I0; reflexivity|discriminate|reflexivity|]. apply O, I0; reflexivity. }
  destruct M as [[-> _]|(sp & w & -> & Sp & I)].
  - apply (wd_gap clock_words w0 sep []); [exact Iw0|exact Ns|exact G|]. apply (wd_one clock_words ""). left. reflexivity.
  - rewrite (app_assoc sep). apply (W (sep ++ sp)) with (m := k); [destruct sep; [congruence|discriminate]|apply gaps_app; auto using gaps_spaced|exact I].
Qed.
Lemma clock_worded i c k : opening_phrase i -> clock_phrase c k -> digits (ck_hour k) -> worded clock_words (i ++ c).
Proof.
  intros Hi (p & q & -> & (h & Hh) & Mp & _ & Mq) Dh.
  assert (Nh : ck_hour k <> []) by (intros E; rewrite E in Hh; inversion Hh; cbn in *; lia).
  pose proof (minutes_gaps colon_mark p _ _ (fun b Hb => or_intror Hb) Mp) as Gp.
  assert (G : gaps (ck_hour k ++ p)) by auto using gaps_app, gaps_digits.
  assert (D : exists w sp, i = bs w ++ sp /\ In w clock_words /\ gaps sp).
  { destruct Hi as [-> | (sp & Sp & [-> | ->])]; [exists "", []|exists "at", sp|exists "from", sp]; (split; [reflexivity|split; [cbn; tauto|auto using gaps_spaced]]). constructor. }
  destruct D as (w & sp & -> & Iw & Gs).
  replace ((bs w ++ sp) ++ ck_hour k ++ p ++ q) with (bs w ++ (sp ++ ck_hour k ++ p) ++ q) by (rewrite <- !app_assoc; reflexivity).
  apply (mark_worded w _ q (ck_mark k)); [exact Iw|destruct sp; [destruct (ck_hour k); [congruence|discriminate]|discriminate]|apply gaps_app; assumption|exact Mq].
Qed.
Theorem C77_clock : forall e sortf text t us i c k h mi, sane e -> is_sort sortf -> real_instant t us -> Z.of_nat (List.length text) < 2 ^ 32 ->
  to_lower text = i ++ c -> opening_phrase i -> clock_phrase c k -> digits (ck_hour k) -> clock_time k h mi -> seconds_fine k -> on_clock (ck_mark k) h < 24 ->
  main e sortf gwords_init text (ptime_of t us) = Ret (line (bs (written (Moment (mdate t) (on_clock (ck_mark k) h) mi (decimal (ck_sec k)))))).
Proof.
  intros e sortf text t us i c k h mi He Hs H Hn E Hi Hc Dh Ct Sf H24.
  destruct (C65_clock_phrase e text t us i c k h mi H E Hi Hc Ct Sf) as (res & X & Tx & Ix & En & Hh & Hm & Hsec & (D1 & D2 & D3) & U).
  assert (W : worded clock_words (to_lower text)) by (rewrite E; apply (clock_worded i c k); assumption).
  pose proof (quiet_text clock_words not_clock text clock_quiet ltac:(vm_compute; reflexivity) W) as Q.
  rewrite (whole_answer e sortf text (ptime_of t us) [casual_time; deadline; day_of_week; casual_date; middle_endian; time_later; month_name; time_ago] time_expression [iso; holiday; week] res eq_refl); auto.
  - apply (shown_moment e time_expression text (ptime_of t us)); auto using in_clock_parsers.
    + assert (V : api_get Sec (r_start res) = decimal (ck_sec k)) by (unfold clock_seconds in Hsec; destruct (ck_sec k); [apply Hsec|apply certain_value, Hsec]).
      repeat split; [exact (implied_value _ _ _ D1)|exact (implied_value _ _ _ D2)|exact (implied_value _ _ _ D3)|exact (certain_value _ _ _ Hh)|exact (certain_value _ _ _ Hm)|exact V].
    + destruct Ct as (Ts & M60 & _). pose proof (time_nonneg _ _ _ _ Ts) as [Hn0 Mn0].
      assert (Sb : 0 <= decimal (ck_sec k) < 60) by (unfold clock_seconds in Hsec; destruct (ck_sec k) as [|c0 ss] eqn:Es; [cbn; lia|]; destruct Hsec as [_ ?]; split; [|assumption]; destruct Hc as (p & q & _ & _ & Mp & _); rewrite Es in Mp; inversion Mp as [| |? ? ? ? ? ? ? ? ? Ds]; apply decimal_bounds; assumption).
      split; [apply H|]. cbn [mhour mmin msec]. split; [|split; [lia|exact Sb]]. split; [|exact H24]. destruct (ck_mark k); cbn; try lia; destruct (h =? 12); lia.
  - assert (Dm : minor e text (ptime_of t us) deadline) by (apply silent_minor, (no_in_no_deadline gap_chars clock_words); auto using gap_not_lower; vm_compute; reflexivity).
    assert (Q' : Forall (minor e text (ptime_of t us)) not_clock) by (eapply Forall_impl; [|exact Q]; intros p; apply silent_minor).
    rewrite Forall_forall in *. intros p Ip. cbn [app In] in Ip. assert (D : deadline = p \/ In p not_clock) by (unfold not_clock; cbn [In]; tauto).
    destruct D as [<- | D]; auto.
Qed.
Print Assumptions C77_clock.
Example C77_case : let t := Moment (Cal 2024 2 29) 5 6 7 in let k := Clock (bs "12") (bs "30") (bs "15") Pm in
  sane strict_env /\ real_instant t 1 /\ to_lower (bs "From 12:30:15 P.M.") = bs "from " ++ bs "12:30:15 p.m." /\ opening_phrase (bs "from ") /\ clock_phrase (bs "12:30:15 p.m.") k /\ digits (ck_hour k) /\
  clock_time k 12 30 /\ seconds_fine k /\ on_clock Pm 12 = 12 /\
  main strict_env sort_stable gwords_init (bs "From 12:30:15 P.M.") (ptime_of t 1) = Ret (line (bs "2024-Feb-29 12:30:15")) /\
  main strict_env sort_other gwords_init (bs "1630") (ptime_of t 1) = Ret (line (bs "2024-Feb-29 16:30:00")).
Proof.
  cbv zeta. split; [intros n; left; reflexivity|]. split; [inst|]. split; [reflexivity|]. split; [right; exists (bs " "); split; [repeat constructor|auto]|].
  split. { exists (bs ":30:15"), (bs " p.m."). split; [reflexivity|]. split; [exists 12; apply (hs_digits (bs "12")); [repeat constructor|cbn; lia]|].
    split; [apply (mp_seconds colon_mark (bs ":") (bs "30") (bs ":") (bs "15") []); [right; left; reflexivity|repeat constructor|cbn; lia|left; reflexivity|repeat constructor|cbn; lia|left; reflexivity]|].
    split; [cbn; lia|]. right. exists (bs " "), "p.m.". split; [reflexivity|]. split; [repeat constructor|cbn; tauto]. }
  split; [repeat constructor|]. split; [split; [apply (ts_minutes (bs "12") (bs "30")); [apply (hs_digits (bs "12")); [repeat constructor|cbn; lia]|repeat constructor|cbn; lia]|cbn; lia]|].
  split; [right; cbn; lia|]. split; [reflexivity|]. split; vm_compute; reflexivity.
Qed.

(** ** C78: months *)
Definition not_month : list parser := [casual_time; deadline; day_of_week; casual_date; middle_endian; time_later; time_ago; time_expression; iso; holiday; week].
Lemma month_alone_quiet : forallb (fun x => forallb (silentb (bs (fst x))) not_month) known_months = true. Proof. vm_compute. reflexivity. Qed.
Lemma silent_low text text' p : to_lower text = to_lower text' -> silent text p -> silent text' p.
Proof. unfold silent. intros ->. auto. Qed.
Lemma in_month_parsers : In month_name parsers. Proof. unfold parsers. do 6 right. left. reflexivity. Qed.
Lemma known_low x m : In (x, m) known_months -> to_lower (bs x) = bs x.
Proof. intros I. cbn [In known_months] in I. decompose [or] I; try contradiction; match goal with E : (_, _) = (_, _) |- _ => injection E as <- <- end; reflexivity. Qed.
Lemma month_answer e sortf text ref res : sane e -> is_sort sortf -> Z.of_nat (List.length text) < 2 ^ 32 ->
  alone e month_name text ref = Ret [res] -> r_text res = to_lower text -> r_index res = 0 -> Forall (minor e text ref) not_month ->
  main e sortf gwords_init text ref = shown (toDate res).
Proof.
  intros He Hs Hn X Tx Ix Q.
  apply (whole_answer e sortf text ref [casual_time; deadline; day_of_week; casual_date; middle_endian; time_later] month_name [time_ago; time_expression; iso; holiday; week] res eq_refl); auto.
Qed.
Lemma first_real y m : 1400 <= y <= 9999 -> 1 <= m <= 12 -> real_date (Cal y m 1).
Proof. intros Hy Hm. split; [|exact Hy]. split; [exact Hm|]. pose proof (month_len_bounds y m Hm). cbn [cd cy cm]. lia. Qed.
Lemma months_short : forallb (fun x => Z.of_nat (List.length (bs (fst x))) <? 100) known_months = true. Proof. vm_compute. reflexivity. Qed.
(** a month name alone: the first of the nearest such month *)
Theorem C78_month_alone : forall e sortf text t us x m, sane e -> is_sort sortf -> real_instant t us -> 1401 <= cy (mdate t) <= 9998 ->
  In (x, m) known_months -> to_lower text = bs x ->
  exists y, nearest_year_to (mdate t) m 1 y /\ main e sortf gwords_init text (ptime_of t us) = Ret (line (bs (written (Moment (Cal y m 1) 0 0 0)))).
Proof.
  intros e sortf text t us x m He Hs H Hy I E.
  destruct (C33_month_alone_partial e gwords_init text t us x m H Hy I E) as (res & X & Tx & Ix & En & Cm & Im & U & y & Ny & Iy).
  exists y. split; [exact Ny|].
  rewrite (month_answer e sortf text (ptime_of t us) res); auto.
  - apply (shown_moment e month_name text (ptime_of t us)); auto using in_month_parsers.
    + unfold untouched in U. rewrite Forall_forall in U. assert (V : forall f, In f [WDay; Hour; Min; Sec; TzOffset] -> api_get f (r_start res) = 0) by (intros f If; apply U; exact If).
      repeat split; [exact (implied_value _ _ _ Iy)|exact (certain_value _ _ _ Cm)|exact (implied_value _ _ _ Im)|apply (V Hour)|apply (V Min)|apply (V Sec)]; cbn; tauto.
    + apply midnight_real. destruct Ny as (By & _). pose proof (known_value _ _ I) as (_ & Hm & _). apply first_real; lia.
  - assert (Ll : List.length text = List.length (bs x)) by (rewrite <- E; unfold to_lower; rewrite map_length; reflexivity). rewrite Ll. revert I. clear.
    intros I. pose proof (proj1 (forallb_forall _ _) months_short _ I) as Q. cbn [fst] in Q. lia.
  - rewrite Tx, E. reflexivity.
  - pose proof (proj1 (forallb_forall _ _) month_alone_quiet _ I) as Q. cbn [fst] in Q. apply silentb_ok in Q.
    eapply Forall_impl; [|exact Q]. intros p Sp. apply silent_minor. apply (silent_low (bs x)); [|exact Sp]. rewrite E. apply (known_low x m). exact I.
Qed.
Print Assumptions C78_month_alone.

Definition month_chars : list ascii := letters ++ bs "0123456789., -".
Definition month_keys : list string := Eval vm_compute in filter (fun f => forallb (fun x => negb (containsb (bs f) (bs (fst x)))) known_months) ("in" :: key_words).
Definition month_void : list parser := [casual_time; deadline; day_of_week; casual_date; time_later; time_ago; holiday; week].
Lemma month_quiet : forallb (void_in month_chars (map bs month_keys)) month_void = true. Proof. vm_compute. reflexivity. Qed.
Definition digit_class : list ascii := bs "0123456789".
Definition month_shapes : list (list (list ascii)) := flat_map (fun x => map (fun s => shape_of (fst x ++ s) ++ repeat digit_class 4) year_seps) known_months.
Lemma seps_short : forallb (fun x => Z.of_nat (List.length (bs x)) <? 100) year_seps = true. Proof. vm_compute. reflexivity. Qed.
Lemma with_three {X} (P : X -> Prop) a b c d e f g h i j k : Forall P [a; b; c; d; f; g; j; k] -> P e -> P h -> P i -> Forall P [a; b; c; d; e; f; g; h; i; j; k].
Proof. rewrite !Forall_cons_iff. tauto. Qed.
Lemma month_shape x m sep yy : In (x, m) known_months -> In sep year_seps -> digits yy -> List.length yy = 4%nat -> exists D, In D month_shapes /\ shaped D (bs x ++ bs sep ++ yy).
Proof.
  intros I Is Dy Ly. exists (shape_of (x ++ sep) ++ repeat digit_class 4). split.
  - unfold month_shapes. apply in_flat_map. exists (x, m). split; [exact I|]. apply (in_map (fun s => shape_of (x ++ s) ++ repeat digit_class 4)). exact Is.
  - replace (bs x ++ bs sep ++ yy) with (bs (x ++ sep) ++ yy) by (rewrite app_assoc; f_equal; clear; unfold bs; induction x as [|c x IH]; cbn; [reflexivity|f_equal; exact IH]).
    apply shaped_app; [apply shaped_of|]. rewrite <- Ly. clear - Dy. induction Dy as [|c w Hc D IH]; cbn [List.length repeat]; constructor; [apply digit_in; exact Hc|exact IH].
Qed.
Lemma months_middle : forallb (no_factor middle_endian_re) month_shapes = true. Proof. vm_compute. reflexivity. Qed.
Lemma months_iso : forallb (no_factor iso_re) month_shapes = true. Proof. vm_compute. reflexivity. Qed.
Lemma months_clock : forallb (no_word time_expression_re) month_shapes = true. Proof. vm_compute. reflexivity. Qed.
Lemma shape_silent_re D text p r : compile (p_pattern p) = Some r -> no_factor r D = true -> shaped D (to_lower text) -> silent text p.
Proof. intros C H. apply shape_silent. rewrite C. exact H. Qed.
Lemma month_chars_ok : forallb (fun x => forallb (fun c => existsb (Ascii.eqb c) month_chars) (bs (fst x))) known_months = true. Proof. vm_compute. reflexivity. Qed.
Lemma sep_chars_ok : forallb (fun x => forallb (fun c => existsb (Ascii.eqb c) month_chars) (bs x)) year_seps = true. Proof. vm_compute. reflexivity. Qed.
Lemma sep_not_lower : forallb (fun x => forallb (fun c => negb (is_lower c)) (bs x)) year_seps = true. Proof. vm_compute. reflexivity. Qed.
Lemma month_keys_ok : forallb (fun f => if proper f then forallb (fun x => negb (containsb (bs f) (bs (fst x)))) known_months else false) month_keys = true. Proof. vm_compute. reflexivity. Qed.
Lemma chars_in A w : forallb (fun c => existsb (Ascii.eqb c) A) w = true -> Forall (fun c => In c A) w.
Proof. intros H. apply Forall_forall. intros c I. rewrite forallb_forall in H. specialize (H c I). apply existsb_exists in H as (d & Id & Q). apply Ascii.eqb_eq in Q. subst. exact Id. Qed.
(** the words of the other parsers do not occur *)
Lemma month_no_key x m sep yy f : In (x, m) known_months -> In sep year_seps -> digits yy -> List.length yy = 4%nat -> In f (map bs month_keys) -> ~ occurs f (bs x ++ bs sep ++ yy).
Proof.
  intros I Is Dy Ly If O. apply in_map_iff in If as (w & <- & Iw). pose proof (proj1 (forallb_forall _ _) month_keys_ok w Iw) as K. cbv beta in K.
  destruct (proper w) eqn:P; [|discriminate]. unfold proper in P. destruct (forallb is_lower (bs w)) eqn:Lw; [|discriminate].
  pose proof (proj1 (forallb_forall _ _) K _ I) as N. cbn [fst] in N. apply negb_true_iff in N. apply containsb_ok in N.
  replace (bs x ++ bs sep ++ yy) with (bs x ++ (bs sep ++ yy) ++ []) in O by (rewrite app_nil_r; reflexivity).
  assert (Nw : bs w <> []) by (intros Q; rewrite Q in P; discriminate).
  apply occurs_gap in O as [O|O].
  - exact (N O).
  - destruct O as (a & b & Q). destruct a; [|discriminate]. cbn [app] in Q. symmetry in Q. apply app_eq_nil in Q as [Q _]. congruence.
  - exact Nw.
  - apply Forall_forall. apply forallb_forall. exact Lw.
  - destruct yy; [discriminate|]. destruct (bs sep); discriminate.
  - apply Forall_app. split.
    + pose proof (proj1 (forallb_forall _ _) sep_not_lower _ Is) as Q. apply Forall_forall. intros c Ic. rewrite forallb_forall in Q. apply negb_true_iff, Q, Ic.
    + eapply Forall_impl; [|exact Dy]. cbn. apply not_lower_digit.
Qed.
Lemma month_text_chars x m sep yy : In (x, m) known_months -> In sep year_seps -> digits yy -> Forall (fun c => In c month_chars) (bs x ++ bs sep ++ yy).
Proof.
  intros I Is Dy. apply Forall_app. split; [exact (chars_in _ _ (proj1 (forallb_forall _ _) month_chars_ok _ I))|]. apply Forall_app. split; [exact (chars_in _ _ (proj1 (forallb_forall _ _) sep_chars_ok _ Is))|].
  eapply Forall_impl; [|exact Dy]. cbv beta. intros c Hc. apply in_or_app. right. apply (in_or_app (bs "0123456789") (bs "., -")). left. apply digit_in. exact Hc.
Qed.
(** a month name and a year: the first of that month *)
Theorem C78_month_year : forall e sortf text t us x m sep yy, benign e -> is_sort sortf -> real_instant t us ->
  In (x, m) known_months -> In sep year_seps -> digits yy -> List.length yy = 4%nat -> 1400 <= decimal yy -> to_lower text = bs x ++ bs sep ++ yy ->
  main e sortf gwords_init text (ptime_of t us) = Ret (line (bs (written (Moment (Cal (decimal yy) m 1) 0 0 0)))).
Proof.
  intros e sortf text t us x m sep yy He Hs H I Is Dy Ly By E.
  destruct (C33_month_year_partial e gwords_init text t us x m sep yy H I Is Dy Ly ltac:(lia) E) as (res & X & Tx & Ix & En & Cm & Cy & Im & U).
  pose proof (known_value _ _ I) as (_ & Hm & _).
  assert (Ub : decimal yy <= 9999) by (pose proof (decimal_bounds yy Dy) as [_ B]; rewrite Ly in B; change (10 ^ Z.of_nat 4) with 10000 in B; lia).
  rewrite (month_answer e sortf text (ptime_of t us) res); auto using benign_sane.
  - apply (shown_moment e month_name text (ptime_of t us)); auto using in_month_parsers, benign_sane.
    + unfold untouched in U. rewrite Forall_forall in U. assert (V : forall f, In f [WDay; Hour; Min; Sec; TzOffset] -> api_get f (r_start res) = 0) by (intros f If; apply U; exact If).
      repeat split; [exact (certain_value _ _ _ Cy)|exact (certain_value _ _ _ Cm)|exact (implied_value _ _ _ Im)|apply (V Hour)|apply (V Min)|apply (V Sec)]; cbn; tauto.
    + apply midnight_real, first_real; lia.
  - assert (Ll : Z.of_nat (List.length text) = Z.of_nat (List.length (bs x)) + Z.of_nat (List.length (bs sep)) + 4).
    { replace (List.length text) with (List.length (to_lower text)) by (unfold to_lower; apply map_length). rewrite E, !app_length, Ly. lia. }
    pose proof (proj1 (forallb_forall _ _) months_short _ I) as Q. cbn [fst] in Q. pose proof (proj1 (forallb_forall _ _) seps_short _ Is) as Q'. cbv beta in Q'. rewrite Ll. lia.
  - destruct (month_shape x m sep yy I Is Dy Ly) as (D & ID & Sh). rewrite <- E in Sh.
    assert (Q : Forall (silent text) month_void).
    { apply (quiet_gen month_chars (map bs month_keys) month_void text month_quiet); rewrite E; [exact (month_text_chars x m sep yy I Is Dy)|intros f If; exact (month_no_key x m sep yy f I Is Dy Ly If)]. }
    assert (Qm : silent text middle_endian) by (apply (shape_silent_re D text _ middle_endian_re middle_endian_compile); [exact (proj1 (forallb_forall _ _) months_middle _ ID)|exact Sh]).
    assert (Qi : silent text iso) by (apply (shape_silent_re D text _ iso_re iso_compile); [exact (proj1 (forallb_forall _ _) months_iso _ ID)|exact Sh]).
    assert (Qc : minor e text (ptime_of t us) time_expression).
    { destruct (C64_clock_total e text t us He H) as [rs Xc].
      apply (part_minor e text _ time_expression time_expression_re rs (benign_sane e He) ltac:(cbn; tauto) time_expression_compile Xc).
      apply (no_word_ok D); [exact (proj1 (forallb_forall _ _) months_clock _ ID)|exact Sh]. }
    apply (with_three (minor e text (ptime_of t us))); [|apply silent_minor; exact Qm|exact Qc|apply silent_minor; exact Qi].
    eapply Forall_impl; [|exact Q]. intros p. apply silent_minor.
Qed.
Print Assumptions C78_month_year.
Example C78_case : let t := Moment (Cal 2024 2 20) 5 6 7 in benign (benign_env "x") /\ real_instant t 1 /\ In ("sept.", 9) known_months /\ In ", " year_seps /\
  to_lower (bs "SEPT., 2012") = bs "sept." ++ bs ", " ++ bs "2012" /\ nearest_year_to (mdate t) 9 1 2023 /\
  main (benign_env "x") sort_stable gwords_init (bs "SEPT., 2012") (ptime_of t 1) = Ret (line (bs "2012-Sep-01 00:00:00")) /\
  main (benign_env "x") sort_other gwords_init (bs "september") (ptime_of t 1) = Ret (line (bs "2023-Sep-01 00:00:00")).
Proof.
  cbv zeta. split; [split; [exists "x"%char; reflexivity|split; intros; reflexivity]|]. split; [inst|]. split; [cbn; tauto|]. split; [cbn; tauto|]. split; [reflexivity|].
  split; [|split; vm_compute; reflexivity]. split; [cbn; lia|]. split; [|intros _; vm_compute; reflexivity].
  intros y' Hy. cbn [Spec.mdate cy] in Hy. assert (D : y' = 2023 \/ y' = 2024 \/ y' = 2025) by lia. destruct D as [-> | [-> | ->]]; vm_compute; discriminate.
Qed.

(** ** C79: clock ranges *)
(** the least number of times a character stands in a word of the expression *)
Fixpoint least (c : ascii) (r : re) : nat :=
  match r with
  | RSet neg items => match lit1 neg items with Some d => if Ascii.eqb c d then 1 else 0 | None => 0 end
  | RCat a b => (least c a + least c b)%nat
  | RAlt a b => Nat.min (least c a) (least c b)
  | RGrp _ a => least c a
  | _ => 0
  end.
Lemma least_ok c r : forall w, lang true r w -> low w -> (least c r <= count_occ ascii_dec w c)%nat.
Proof.
  induction r as [|neg items|a IHa b IHb|a IHa b IHb|g a IHa|g a IHa|n a IHa| | |neg|neg a IHa]; intros w; cbn [lang least]; try lia.
  - intros (d & -> & Hd) Lo. destruct (lit1 neg items) as [x|] eqn:E; [|lia]. destruct (Ascii.eqb_spec c x) as [<-|]; [|lia]. inversion Lo; subst.
    rewrite (lit1_ok _ _ _ _ E Hd) by assumption. cbn. destruct (ascii_dec c c); [lia|congruence].
  - intros (u & v & -> & La & Lb) Lo. apply Forall_app in Lo as [Lu Lv]. rewrite count_occ_app. specialize (IHa u La Lu). specialize (IHb v Lb Lv). lia.
  - intros [L|L] Lo; [specialize (IHa w L Lo)|specialize (IHb w L Lo)]; lia.
  - auto.
Qed.
Lemma scarce_silent c text p r : compile (p_pattern p) = Some r -> (count_occ ascii_dec (to_lower text) c < least c r)%nat -> silent text p.
Proof.
  intros C H. unfold silent. rewrite C. destruct (search true r (to_lower text)) as [m|] eqn:Es; [|reflexivity]. exfalso.
  destruct (search_split _ _ _ _ Es) as (pre & post & E & _ & L & _). pose proof (low_to_lower text) as Lo. rewrite E in Lo, H. apply low_app_inv in Lo.
  apply (least_ok c) in L; [|exact Lo]. rewrite !count_occ_app in H. lia.
Qed.
Definition dash_chars : list ascii := gap_chars ++ bs "-–~".
Lemma dash_not_lower c : In c dash_chars -> is_lower c = false.
Proof.
  assert (H : forallb (fun c => negb (is_lower c)) dash_chars = true) by (vm_compute; reflexivity). rewrite forallb_forall in H. intros I. apply negb_true_iff, H, I.
Qed.
Definition range_words : list string := [""; "from"; "to"; "am"; "pm"].
Definition not_range : list parser := [casual_time; day_of_week; casual_date; middle_endian; time_later; month_name; time_ago; holiday; week].
Definition range_chars : list ascii := letters ++ dash_chars.
Lemma range_quiet : forallb (void_in range_chars (map bs (keys_for key_words range_words))) not_range = true. Proof. vm_compute. reflexivity. Qed.
Definition dashes (s : bytes) : Prop := Forall (fun c => In c dash_chars) s.
Lemma gaps_dashes s : gaps s -> dashes s. Proof. apply Forall_impl. intros c I. apply in_or_app. left. exact I. Qed.
Lemma range_clock_worded x pre c k : In x range_words -> dashes pre -> simple_clock c k -> digits (ck_hour k) -> forall rest, (rest = [] \/ exists s t, s <> [] /\ dashes s /\ worded_by dash_chars range_words t /\ rest = s ++ t) ->
  worded_by dash_chars range_words (bs x ++ pre ++ c ++ rest).
Proof.
  intros Ix Dp (p & q & -> & (h & Hh) & _ & _ & Mp & Mq) Dh rest R.
  assert (Nh : ck_hour k <> []) by (intros E; rewrite E in Hh; inversion Hh; cbn in *; lia).
  assert (Gp : gaps p) by (destruct Mp as [[-> _]|(-> & Dm & _)]; [constructor|apply gaps_app; [apply gaps_lit; reflexivity|apply gaps_digits; exact Dm]]).
  assert (Gh : gaps (ck_hour k ++ p)) by (apply gaps_app; auto using gaps_digits).
  assert (Z : forall w s, In w range_words -> s <> [] -> dashes s -> worded_by dash_chars range_words (bs w ++ s)).
  { intros w s Iw Ns Ds. rewrite <- (app_nil_r s). apply (wd_gap range_words w s []); auto. apply (wd_one range_words ""). left. reflexivity. }
  assert (Tl : forall w, In w range_words -> worded_by dash_chars range_words (bs w ++ rest)).
  { intros w Iw. destruct R as [-> | (s & t & Ns & Ds & Wt & ->)]; [rewrite app_nil_r; constructor; exact Iw|constructor; assumption]. }
  destruct Mq as [[-> _]|(sp & w & -> & Sp & I)].
  - replace (bs x ++ pre ++ (ck_hour k ++ p ++ []) ++ rest) with (bs x ++ (pre ++ ck_hour k ++ p) ++ bs "" ++ rest) by (rewrite app_nil_r, <- !app_assoc; reflexivity).
    constructor; [exact Ix|destruct pre; [destruct (ck_hour k); [congruence|discriminate]|discriminate]|apply Forall_app; split; [exact Dp|apply gaps_dashes; exact Gh]|]. apply Tl. left. reflexivity.
  - replace (bs x ++ pre ++ (ck_hour k ++ p ++ sp ++ bs w) ++ rest) with (bs x ++ (pre ++ (ck_hour k ++ p) ++ sp) ++ bs w ++ rest) by (rewrite <- !app_assoc; reflexivity).
    constructor; [exact Ix|destruct pre; [destruct (ck_hour k); [congruence|discriminate]|discriminate]| |].
    + apply Forall_app; split; [exact Dp|]. apply gaps_dashes, gaps_app; [exact Gh|apply gaps_spaced; exact Sp].
    + apply Tl. cbn in I. destruct I as [I|[I|[]]]; injection I as <- _; cbn; tauto.
Qed.
Lemma gap_no_dash s : gaps s -> count_occ ascii_dec s "-"%char = 0%nat.
Proof.
  intros G. apply count_occ_not_In. intros I. unfold gaps in G. rewrite Forall_forall in G. specialize (G _ I). revert G.
  assert (H : existsb (Ascii.eqb "-"%char) gap_chars = false) by (vm_compute; reflexivity). intros J. assert (existsb (Ascii.eqb "-"%char) gap_chars = true) by (apply existsb_exists; eexists; split; [exact J|reflexivity]). congruence.
Qed.
Lemma simple_no_dash c k : simple_clock c k -> digits (ck_hour k) -> count_occ ascii_dec c "-"%char = 0%nat.
Proof.
  intros (p & q & -> & _ & _ & _ & Mp & Mq) Dh. rewrite !count_occ_app, (gap_no_dash _ (gaps_digits _ Dh)).
  replace (count_occ ascii_dec p "-"%char) with 0%nat by (destruct Mp as [[-> _]|(-> & Dm & _)]; [reflexivity|symmetry; apply gap_no_dash, gaps_app; [apply gaps_lit; reflexivity|apply gaps_digits; exact Dm]]).
  destruct Mq as [[-> _]|(sp & w & -> & Sp & I)]; [reflexivity|]. rewrite count_occ_app, (gap_no_dash _ (gaps_spaced _ Sp)).
  cbn in I. destruct I as [I|[I|[]]]; injection I as <- _; reflexivity.
Qed.
Lemma separator_dash s : range_separator s -> (count_occ ascii_dec s "-"%char <= 1)%nat.
Proof.
  intros (s1 & t & s2 & -> & S1 & S2 & T). rewrite !count_occ_app, (gap_no_dash _ (gaps_spaced _ S1)), (gap_no_dash _ (gaps_spaced _ S2)).
  destruct T as [[<- | [<- | [<- | []]]]|[-> _]]; vm_compute; lia.
Qed.
Lemma range_worded i c1 k1 s c2 k2 : range_opening i -> simple_clock c1 k1 -> digits (ck_hour k1) -> range_separator s -> simple_clock c2 k2 -> digits (ck_hour k2) ->
  worded_by dash_chars range_words (i ++ c1 ++ s ++ c2).
Proof.
  intros Hi H1 D1 (s1 & t & s2 & -> & S1 & S2 & T) H2 D2.
  assert (R : exists x pre, i = bs x ++ pre /\ In x range_words /\ dashes pre).
  { destruct Hi as [-> | (sp & Sp & _ & ->)]; [exists "", []; repeat split; [left; reflexivity|constructor]|exists "from", sp; repeat split; [cbn; tauto|apply gaps_dashes, gaps_spaced; exact Sp]]. }
  destruct R as (x & pre & -> & Ix & Dp). rewrite <- app_assoc. apply (range_clock_worded x pre c1 k1); auto. right.
  destruct T as [T|[-> N1]].
  - exists (s1 ++ t), (bs "" ++ s2 ++ c2 ++ []). split; [destruct T as [<- | [<- | [<- | []]]]; destruct s1; discriminate|]. split.
    + apply Forall_app. split; [apply gaps_dashes, gaps_spaced; exact S1|]. apply chars_in. destruct T as [<- | [<- | [<- | []]]]; vm_compute; reflexivity.
    + split; [|rewrite app_nil_r, <- !app_assoc; reflexivity]. apply (range_clock_worded "" s2 c2 k2); auto; [left; reflexivity|apply gaps_dashes, gaps_spaced; exact S2].
  - exists s1, (bs "to" ++ s2 ++ c2 ++ []). split; [exact N1|]. split; [apply gaps_dashes, gaps_spaced; exact S1|].
    split; [|rewrite app_nil_r, <- !app_assoc; reflexivity]. apply (range_clock_worded "to" s2 c2 k2); auto; [cbn; tauto|apply gaps_dashes, gaps_spaced; exact S2].
Qed.
Lemma time_denotes t k h mi p : at_time t k h mi p -> ck_sec k = [] -> denotes p (Moment (mdate t) h mi 0).
Proof.
  intros (Hh & Hm & Hsec & (D1 & D2 & D3) & _) Es. unfold clock_seconds in Hsec. rewrite Es in Hsec. destruct Hsec as (_ & _ & V).
  repeat split; [exact (implied_value _ _ _ D1)|exact (implied_value _ _ _ D2)|exact (implied_value _ _ _ D3)|exact (certain_value _ _ _ Hh)|exact (certain_value _ _ _ Hm)|exact V].
Qed.
Lemma with_two {X} (P : X -> Prop) a b c d e f g h i j k : Forall P [a; c; d; e; f; g; h; j; k] -> P b -> P i -> Forall P [a; b; c; d; e; f; g; h; i; j; k].
Proof. rewrite !Forall_cons_iff. tauto. Qed.
Theorem C79_clock_range : forall e sortf text t us i c1 k1 s c2 k2 h1 m1 h2 m2, sane e -> is_sort sortf -> real_instant t us -> Z.of_nat (List.length text) < 2 ^ 32 ->
  to_lower text = i ++ c1 ++ s ++ c2 -> range_opening i -> simple_clock c1 k1 -> digits (ck_hour k1) -> range_separator s -> simple_clock c2 k2 -> digits (ck_hour k2) ->
  clock_time k1 h1 m1 -> clock_time k2 h2 m2 -> ~ looks_like_zone (s ++ c2) ->
  (ck_mark k1 <> NoMarker /\ ck_mark k2 = NoMarker) \/ (ck_mark k2 <> NoMarker /\ forall c, ev_dangling e c = Some c) ->
  let a := Moment (mdate t) (range_start (ck_mark k1) h1 (ck_mark k2)) m1 0 in
  let b := Moment (mdate t) (on_clock (match ck_mark k2 with NoMarker => ck_mark k1 | k => k end) h2) m2 0 in
  real_moment a -> real_moment b ->
  main e sortf gwords_init text (ptime_of t us) = Ret (line (bs (written a ++ " - " ++ written b)%string)).
Proof.
  intros e sortf text t us i c1 k1 s c2 k2 h1 m1 h2 m2 He Hs H Hn E Hi H1 D1 Hsep H2 D2 T1 T2 Nz Mk a b Ra Rb.
  destruct (C45_range_partial e text t us i c1 k1 s c2 k2 h1 m1 h2 m2 H E Hi H1 Hsep H2 D2 T1 T2 Nz Mk) as (res & X & Tx & Ix & En & A1 & A2).
  assert (W : worded_by dash_chars range_words (to_lower text)) by (rewrite E; apply (range_worded i c1 k1 s c2 k2); assumption).
  assert (Q : Forall (silent text) not_range).
  { apply (quiet_gen range_chars (map bs (keys_for key_words range_words)) not_range text range_quiet).
    - apply (worded_chars dash_chars range_words); [vm_compute; reflexivity|intros c I; apply in_or_app; right; exact I|exact W].
    - exact (keys_avoid dash_chars key_words range_words _ dash_not_lower proper_keys W). }
  assert (Qi : silent text iso).
  { apply (scarce_silent "-"%char text iso iso_re iso_compile). change (least "-"%char iso_re) with 2%nat. rewrite E, !count_occ_app.
    rewrite (simple_no_dash c1 k1 H1 D1), (simple_no_dash c2 k2 H2 D2). pose proof (separator_dash s Hsep).
    replace (count_occ ascii_dec i "-"%char) with 0%nat; [lia|]. destruct Hi as [-> | (sp & Sp & _ & ->)]; [reflexivity|]. rewrite count_occ_app, (gap_no_dash _ (gaps_spaced _ Sp)). reflexivity. }
  assert (Qd : silent text deadline) by (refine (no_in_no_deadline dash_chars range_words text dash_not_lower _ _ W); vm_compute; reflexivity).
  assert (Es1 : ck_sec k1 = []) by (destruct H1 as (p & q & _ & _ & _ & Es & _); exact Es).
  assert (Es2 : ck_sec k2 = []) by (destruct H2 as (p & q & _ & _ & _ & Es & _); exact Es).
  rewrite (whole_answer e sortf text (ptime_of t us) [casual_time; deadline; day_of_week; casual_date; middle_endian; time_later; month_name; time_ago] time_expression [iso; holiday; week] res eq_refl He Hs Hn X Tx Ix).
  - unfold shown. rewrite (toDate_range res a b (time_denotes t k1 _ m1 _ A1 Es1) Ra); [reflexivity| |exact En|exact (time_denotes t k2 _ m2 _ A2 Es2)|exact Rb].
    apply (C73_no_refiner_tag e time_expression gwords_init text (ptime_of t us) [res] res TExtractTZ He (in_all _ in_clock_parsers) X); [left; reflexivity|left; reflexivity].
  - apply (Forall_impl _ (silent_minor e text (ptime_of t us))). cbn [app]. exact (with_two (silent text) _ _ _ _ _ _ _ _ _ _ _ Q Qd Qi).
Qed.
Print Assumptions C79_clock_range.
Example C79_case : let t := Moment (Cal 2024 2 29) 5 6 7 in let k1 := Clock (bs "5") (bs "30") [] NoMarker in let k2 := Clock (bs "7") [] [] Pm in real_instant t 1 /\ sane (benign_env "x") /\
  to_lower (bs "From 5:30 - 7PM") = bs "from " ++ bs "5:30" ++ bs " - " ++ bs "7pm" /\ range_opening (bs "from ") /\ simple_clock (bs "5:30") k1 /\ range_separator (bs " - ") /\ simple_clock (bs "7pm") k2 /\
  digits (ck_hour k1) /\ digits (ck_hour k2) /\ clock_time k1 5 30 /\ clock_time k2 7 0 /\ range_start NoMarker 5 Pm = 17 /\ on_clock Pm 7 = 19 /\
  main (benign_env "x") sort_stable gwords_init (bs "From 5:30 - 7PM") (ptime_of t 1) = Ret (line (bs "2024-Feb-29 17:30:00 - 2024-Feb-29 19:00:00")) /\
  main (benign_env "x") sort_other gwords_init (bs "9 am to 11") (ptime_of t 1) = Ret (line (bs "2024-Feb-29 09:00:00 - 2024-Feb-29 11:00:00")).
Proof.
  cbv zeta. split; [inst|]. split; [intros n; right; reflexivity|]. split; [reflexivity|]. split; [right; exists (bs " "); split; [repeat constructor|split; [discriminate|reflexivity]]|].
  split. { exists (bs ":30"), []. split; [reflexivity|]. split; [exists 5; apply (hs_digits (bs "5")); [repeat constructor|cbn; lia]|]. split; [cbn; lia|]. split; [reflexivity|].
    split; [right; repeat split; repeat constructor|left; auto]. }
  split; [exists (bs " "), (bs "-"), (bs " "); repeat split; try (repeat constructor); left; left; reflexivity|].
  split. { exists [], (bs "pm"). split; [reflexivity|]. split; [exists 7; apply (hs_digits (bs "7")); [repeat constructor|cbn; lia]|]. split; [cbn; lia|]. split; [reflexivity|].
    split; [left; auto|right; exists [], "pm"; repeat split; [constructor|cbn; tauto]]. }
  split; [repeat constructor|]. split; [repeat constructor|].
  split; [split; [apply (ts_minutes (bs "5") (bs "30")); [apply (hs_digits (bs "5")); [repeat constructor|cbn; lia]|repeat constructor|cbn; lia]|split; [lia|split; [lia|cbn; congruence]]]|].
  split; [split; [apply (ts_hour (bs "7") 7); [apply (hs_digits (bs "7")); [repeat constructor|cbn; lia]|lia]|split; [lia|split; [lia|cbn; lia]]]|].
  split; [reflexivity|]. split; [reflexivity|]. split; vm_compute; reflexivity.
Qed.
