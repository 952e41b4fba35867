(** * Casual dates and times of day (C18, C19, C20, C58) *)
From Verif Require Import Base Regex RegexParse Calendar Components Utils Execute Spec View ParserSpec CalendarCycle CalendarFacts RegexFacts ResultFacts
  ExecuteFacts ParserRe MatchFacts LocateFacts ParserFacts CasualFacts Main P_CasualDate P_CasualTime Prop_Execute.
From Coq Require Import ZifyBool ZifyNat ZifyN.
Open Scope string_scope.
Open Scope list_scope.
Open Scope Z_scope.

Ltac inst := unfold real_instant, real_moment, real_date, valid, in_range_year, days_after; repeat split; vm_compute; first [reflexivity|discriminate].
Lemma in_casual_date : In casual_date all_parsers. Proof. cbn; tauto. Qed.
Lemma in_casual_time : In casual_time all_parsers. Proof. cbn; tauto. Qed.

(** C18.  Every result of the casual-date parser, for every text and every reference moment. *)
Theorem C18_casual_dates : forall e g text t us rs res, sane e -> real_instant t us ->
  x_res (execute e casual_date g text (ptime_of t us)) = Ret rs -> In res rs ->
  let tx := r_text res in
  let p := r_start res in
  has_end res = false /\ untouched [WDay; TzOffset] p /\
  ((tx = bs "now" /\ date_certain p (mdate t) /\ certain Hour (mhour t) p /\ certain Min (mmin t) p /\ certain Sec (msec t) p) \/
   (tx = bs "today" /\ date_certain p (mdate t) /\ untouched [Hour; Min; Sec] p) \/
   (tx = bs "tonight" /\ date_certain p (mdate t) /\ implied_is Hour 22 p /\ untouched [Min; Sec] p) \/
   (exists sp c, tx = bs "last" ++ sp ++ bs "night" /\ blanks sp /\ real_date c /\
      (if 6 <? mhour t then days_after (-1) (mdate t) c else c = mdate t) /\
      date_certain p c /\ implied_is Hour 0 p /\ untouched [Min; Sec] p) \/
   (exists sp c, tx = bs "yesterday" ++ sp /\ blanks sp /\ real_date c /\ days_after (-1) (mdate t) c /\
      date_certain p c /\ implied_is Hour (mhour t) p /\ untouched [Min; Sec] p) \/
   (exists sp c, (tx = bs "tomorrow" ++ sp \/ tx = bs "tmr" ++ sp) /\ blanks sp /\ real_date c /\
      (if 0 <? mhour t then days_after 1 (mdate t) c else c = mdate t) /\
      date_certain p c /\ untouched [Hour; Min; Sec] p)).
Proof.
  intros e g text t us rs res He H X I.
  destruct (results_from _ _ _ _ _ _ _ _ He in_casual_date casual_date_compile X I) as (off & m & g0 & g1 & r0 & S & L & Xr & _ & ->).
  cbn [p_extract casual_date] in Xr. unfold pure_extract in Xr. injection Xr as _ Xr.
  destruct (casual_date_extracted _ _ _ _ _ _ _ _ H L S Xr) as ([U M] & T & _ & E & _).
  cbn [r_text r_start res_copy]. rewrite T. repeat split; auto.
Qed.
Print Assumptions C18_casual_dates.

(** The parser always returns when the days around the reference are inside Boost's range: it never throws, whatever the text. *)
Theorem C18_casual_dates_total : forall e g text t us, real_instant t us -> neighbours (mdate t) -> sane e ->
  exists rs, x_res (execute e casual_date g text (ptime_of t us)) = Ret rs.
Proof.
  intros e g text t us H N He. apply (execute_total e casual_date casual_date_re).
  - apply Nat.leb_le. vm_compute. reflexivity.
  - exact casual_date_compile.
  - intros off m g0 idx S L. cbn [p_extract casual_date]. unfold pure_extract.
    destruct (casual_date_returns e g0 (skipn off (to_lower text)) m t us idx H N) as [res E]. rewrite E.
    exists g0, res. split; [reflexivity|]. left.
    destruct (casual_date_extracted _ _ _ _ _ _ _ _ H L S E) as (M & _). eapply casual_date_possible; eauto.
Qed.
Print Assumptions C18_casual_dates_total.

Example C18_case : exists r, let t := Moment (Cal 2024 3 1) 7 30 0 in
  real_instant t 5 /\ neighbours (mdate t) /\
  x_res (execute strict_env casual_date gwords_init (bs "it was Last  Night") (ptime_of t 5)) = Ret [r] /\ toDate r = Ret (bs "2024-Feb-29 00:00:00").
Proof.
  eexists. split; [inst|]. split.
  - exists (Cal 2024 2 29), (Cal 2024 3 2). inst.
  - split; [vm_compute; reflexivity|]. vm_compute; reflexivity.
Qed.

(** C19, false at midnight: at 00:30 "tomorrow" is rendered as the reference date itself. *)
Theorem C19_tomorrow_refuted : exists t us r, real_instant t us /\ mdate t = Cal 2024 1 2 /\
  x_res (execute strict_env casual_date gwords_init (bs "tomorrow") (ptime_of t us)) = Ret [r] /\
  toDate r = Ret (bs "2024-Jan-02 00:00:00").
Proof.
  exists (Moment (Cal 2024 1 2) 0 30 0), 0. eexists. split; [inst|].
  split; [reflexivity|]. split; [vm_compute; reflexivity|]. vm_compute; reflexivity.
Qed.
Print Assumptions C19_tomorrow_refuted.

(** What holds, for every text: from 01:00 on, "tomorrow"/"tmr" is the next calendar day; before 01:00 it is the reference date. *)
Theorem C19_tomorrow_partial : forall e g text t us rs res w, sane e -> real_instant t us ->
  x_res (execute e casual_date g text (ptime_of t us)) = Ret rs -> In res rs ->
  w = bs "tomorrow" \/ w = bs "tmr" -> starts_with w (r_text res) = true ->
  date_certain (r_start res) (if 1 <=? mhour t then next_day (mdate t) else mdate t).
Proof.
  intros e g text t us rs res w He H X I Hw Sw.
  destruct (C18_casual_dates e g text t us rs res He H X I) as (_ & _ & M).
  destruct M as [(E & _)|[(E & _)|[(E & _)|[(sp & c & E & _)|[(sp & c & E & _)|(sp & c & E & B & Rc & D & Dc & _)]]]]];
    try (rewrite E in Sw; destruct Hw as [-> | ->]; cbn in Sw; discriminate).
  replace (0 <? mhour t) with (1 <=? mhour t) in D by lia.
  destruct (1 <=? mhour t); [|rewrite <- D; exact Dc].
  assert (c = next_day (mdate t)) as <-; [|exact Dc]. destruct D as [V D].
  assert (Vt : valid (mdate t)) by apply H.
  apply rd_inj; [exact V|apply valid_next_day; exact Vt|]. rewrite rd_next_day by exact Vt. exact D.
Qed.
Print Assumptions C19_tomorrow_partial.

(** ... and the word is always recognised when it stands alone (see C58). *)
Example C19_case : exists r, let t := Moment (Cal 2023 12 31) 23 59 59 in
  x_res (execute strict_env casual_date gwords_init (bs "Tomorrow!") (ptime_of t 0)) = Ret [r] /\
  starts_with (bs "tomorrow") (r_text r) = true /\ toDate r = Ret (bs "2024-Jan-01 00:00:00").
Proof. eexists. split; [vm_compute; reflexivity|]. split; vm_compute; reflexivity. Qed.

(** C20. *)
Theorem C20_casual_times : forall e g text t us, real_instant t us ->
  exists rs, x_res (execute e casual_time g text (ptime_of t us)) = Ret rs /\
  forall res, sane e -> In res rs ->
  let p := r_start res in
  exists this sp w h, r_text res = this ++ sp ++ bs w /\ (this = [] \/ this = bs "this") /\ blanks sp /\
  In (w, h) [("morning", 6); ("afternoon", 15); ("evening", 20); ("noon", 12); ("night", 20)] /\
  date_implied p (mdate t) /\ implied_is WDay (weekday (mdate t)) p /\ implied_is Hour h p /\ implied_is Min (mmin t) p /\
  untouched [Sec; TzOffset] p /\ has_end res = false /\
  (forall f, f <> Min -> isCertain (field_name f) p = false) /\
  (* the moment it denotes *) denotes p (Moment (mdate t) h (mmin t) 0).
Proof.
  intros e g text t us H.
  destruct (execute_total e casual_time casual_time_re (ptime_of t us) text g) as [rs X].
  - apply Nat.leb_le. vm_compute. reflexivity.
  - exact casual_time_compile.
  - intros off m g0 idx S L. cbn [p_extract casual_time]. unfold pure_extract.
    destruct (casual_time_extracted e g0 _ _ _ _ idx H L S) as (res & E & M & _). rewrite E. exists g0, res. split; [reflexivity|]. left.
    destruct M as (? & ? & ? & ? & _ & _ & _ & _ & D & _). eapply date_implied_possible; [apply H|exact D].
  - exists rs. split; [exact X|]. intros res He I.
    destruct (results_from _ _ _ _ _ _ _ _ He in_casual_time casual_time_compile X I) as (off & m & g0 & g1 & r0 & S & L & Xr & _ & ->).
    cbn [p_extract casual_time] in Xr. unfold pure_extract in Xr. injection Xr as _ Xr.
    destruct (casual_time_extracted e g0 _ _ _ _ (Z.of_nat (off + m_pos m)) H L S) as (res & E & (this & sp & w & h & A1 & A2 & A3 & A4 & A5 & A6 & A7 & A8 & A9) & T & _ & F & _).
    rewrite E in Xr. injection Xr as <-. cbn [r_text r_start res_copy]. exists this, sp, w, h. rewrite T.
    do 4 (split; [assumption|]). do 5 (split; [assumption|]). split; [exact F|].
    destruct A5 as ([Y1 [_ Y2]] & [M1 [_ M2]] & [D1 [_ D2]]). destruct A6 as (W1 & _). destruct A7 as (H1 & _ & H2).
    destruct A8 as (N1 & _ & N2). inversion A9 as [|? ? [S1 [_ S2]] A9']; subst. inversion A9' as [|? ? [Z1 _] _]; subst. split.
    + intros f N. destruct f; cbn [field_name] in *; unfold isCertain; cbn [String.eqb Ascii.eqb Bool.eqb]; first [assumption|congruence].
    + cbn [api_get] in *. repeat split; assumption.
Qed.
Print Assumptions C20_casual_times.

Example C20_case : exists r, let t := Moment (Cal 2024 2 29) 9 41 7 in real_instant t 0 /\
  x_res (execute strict_env casual_time gwords_init (bs "let us meet THIS Afternoon") (ptime_of t 0)) = Ret [r] /\
  r_text r = bs "this afternoon" /\ toDate r = Ret (bs "2024-Feb-29 15:41:00").
Proof. eexists. split; [inst|]. split; [vm_compute; reflexivity|]. split; vm_compute; reflexivity. Qed.

(** C58.  Wherever one of the words stands, in any letter case, the casual-date parser returns and finds something. *)
Definition casual_words : list bytes := map bs ["now"; "today"; "tonight"; "yesterday"; "tomorrow"; "tmr"; "last night"].
Lemma casual_word_lang w : In w casual_words -> lang true cd_words w /\ word_opt (hd_error w) = true /\ (forall p, word_opt (lastc w p) = true).
Proof.
  intros I. cbn in I.
  repeat destruct I as [<-|I]; try contradiction; (split; [|split; reflexivity]);
  match goal with |- lang true cd_words ?w =>
    let x := eval vm_compute in (rm true cd_words (mkst None w []) (fun s => match s_rest s with [] => Some s | _ => None end)) in
    assert (G : rm true cd_words (mkst None w []) (fun s => match s_rest s with [] => Some s | _ => None end) = x) by (vm_compute; reflexivity);
    apply rm_sound in G as (s' & M & K); destruct s' as [p' t' c']; destruct t'; [|discriminate];
    apply mt_plain_inv in M as (u & t2 & E & L & E2); [|reflexivity]; injection E2 as _ <- _; rewrite app_nil_r in E; rewrite E; exact L
  end.
Qed.
Lemma separate_before pre : (forall a c, pre = a ++ [c] -> is_word c = false) -> word_opt (lastc pre None) = false.
Proof.
  intros H. destruct pre as [|x pre] using rev_ind; [reflexivity|]. rewrite lastc_app. cbn. eapply H. reflexivity.
Qed.
Lemma separate_after post : (forall c b, post = c :: b -> is_word c = false) -> word_opt (hd_error post) = false.
Proof. intros H. destruct post as [|c b]; [reflexivity|]. cbn. eapply H. reflexivity. Qed.

Theorem C58_casual_words_found : forall e g text t us pre w post, sane e -> real_instant t us -> neighbours (mdate t) ->
  In w casual_words -> to_lower text = pre ++ w ++ post -> separate pre post ->
  exists rs, x_res (execute e casual_date g text (ptime_of t us)) = Ret rs /\ rs <> [].
Proof.
  intros e g text t us pre w post He H N Iw E [Sa Sb].
  destruct (C18_casual_dates_total e g text t us H N He) as [rs X]. exists rs. split; [exact X|].
  assert (Hr : (1 <= min_len casual_date_re)%nat) by (apply Nat.leb_le; vm_compute; reflexivity).
  destruct (casual_word_lang w Iw) as (L & W1 & W2).
  apply (execute_finds e casual_date casual_date_re (ptime_of t us) text g rs pre (w ++ post) He Hr (nonempty_all _ in_casual_date) casual_date_compile);
    [|exact X|exact E|].
  - intros off m g0 g' idx res S Lo Xr. cbn [p_extract casual_date] in Xr. unfold pure_extract in Xr. injection Xr as _ Xr.
    destruct (casual_date_extracted _ _ _ _ _ _ _ _ H Lo S Xr) as (M & _). eapply casual_date_possible; eauto.
  - eexists. exists (mkst (lastc pre None) (w ++ post) [(1%nat, [])]). split.
    + apply mt_WB_intro. unfold wb_at. rewrite (separate_before _ Sa), xorb_F. destruct w; [discriminate|exact W1].
    + eexists. split; [apply mt_grp; [reflexivity|exact L]|]. apply mt_WB_intro. unfold wb_at. rewrite W2, (separate_after _ Sb). reflexivity.
Qed.
Print Assumptions C58_casual_words_found.

Example C58_case : to_lower (bs "(Last Night)") = bs "(" ++ bs "last night" ++ bs ")" /\ separate (bs "(") (bs ")") /\
  In (bs "last night") casual_words.
Proof.
  split; [reflexivity|]. split; [|cbn; tauto]. split.
  - intros a c E. destruct a as [|x [|y a]]; cbn in E; try discriminate. injection E as <-. reflexivity.
  - intros c b E. cbn in E. injection E as <- <-. reflexivity.
Qed.
