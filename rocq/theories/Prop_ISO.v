(** * ISO dates and date-times (C27, C28, C29) *)
From Verif Require Import Base Regex RegexParse Calendar Components Utils Execute Spec View ParserSpec CalendarCycle CalendarFacts RegexFacts ResultFacts
  ExecuteFacts ParserRe MatchFacts ShapeFacts LocateFacts HistoryFacts ParserFacts CasualFacts NumberFacts Symbolic ISOFacts Main P_ISO Prop_Execute Prop_Casual.
From Coq Require Import ZifyBool ZifyNat ZifyN.
Open Scope string_scope.
Open Scope list_scope.
Open Scope Z_scope.

Lemma in_iso : In iso all_parsers. Proof. cbn; tauto. Qed.

(** digit strings of the lengths the format allows *)
Definition iso_fields (yy mm dd : bytes) : Prop :=
  digits yy /\ List.length yy = 4%nat /\ digits mm /\ (1 <= List.length mm <= 2)%nat /\ digits dd /\ (1 <= List.length dd <= 2)%nat.

Lemma iso_alone e g text ref yy mm dd k : to_lower text = iso_text yy mm dd k -> iso_fields yy mm dd -> match k with None => True | Some k => clock_ok k end ->
  1 <= decimal mm <= 12 -> 1 <= decimal dd <= 31 ->
  exists res, x_res (execute e iso g text ref) = Ret [res] /\ r_text res = to_lower text /\ r_index res = 0 /\ has_end res = false /\ iso_said (r_start res) yy mm dd k.
Proof.
  intros E (Dy & Ly & Dm & Lm & Dd & Ld) Dk Hm Hd. destruct (iso_search yy mm dd k Dy Ly Dm Lm Dd Ld Dk) as (m & S & P & Em & G). rewrite <- E in S, Em.
  destruct (iso_extracted e g (to_lower text) m ref 0 yy mm dd k Dy Ly Dm Lm Dd Ld Dk G Hm Hd) as (res & X & T & Ix & En & Sd & _).
  assert (Pd : hasPossibleDates res = true).
  { destruct Sd as ((_ & (_ & M) & _) & _). cbn [api_get cm] in M. unfold hasPossibleDates. rewrite M. replace (decimal mm =? 0) with false by lia. rewrite !andb_false_r. reflexivity. }
  exists (res_copy res). split.
  - rewrite (execute_whole e iso g text ref iso_re m g res iso_compile); auto.
    + apply Nat.leb_le. vm_compute. reflexivity.
    + cbn [p_extract iso]. unfold pure_extract. rewrite X. reflexivity.
  - cbn [r_text r_index res_copy r_start]. rewrite T, Em, Ix. split; [reflexivity|]. split; [reflexivity|]. split; [exact En|exact Sd].
Qed.

(** C27.  Every valid date of the years 0000 to 9999, with one- or two-digit month and day. *)
Theorem C27_iso_dates : forall e g text ref yy mm dd c, to_lower text = ymd_text yy mm dd -> iso_fields yy mm dd ->
  decimal yy = cy c -> decimal mm = cm c -> decimal dd = cd c -> valid c ->
  exists res, x_res (execute e iso g text ref) = Ret [res] /\ r_text res = to_lower text /\ r_index res = 0 /\ has_end res = false /\
    date_certain (r_start res) c /\ untouched [WDay; Hour; Min; Sec; TzOffset] (r_start res).
Proof.
  intros e g text ref yy mm dd c E F Ey Em Ed [V1 V2]. pose proof (month_len_bounds (cy c) (cm c) V1) as B.
  destruct (iso_alone e g text ref yy mm dd None) as (res & X & T & Ix & En & D & U1 & U2); auto; try lia.
  - unfold iso_text. rewrite app_nil_r. exact E.
  - exists res. repeat (split; [assumption|]). rewrite Ey, Em, Ed in D. destruct c as [y m d]. split; [exact D|].
    inversion U1; subst. constructor; assumption.
Qed.
Print Assumptions C27_iso_dates.

(** digits of a number *)
Lemma digit_facts z : 0 <= z < 10 -> exists c, bs (digit z) = [c] /\ is_digit c = true /\ Z.of_N (N_of_ascii c) - 48 = z.
Proof.
  intros H. assert (C : z = 0 \/ z = 1 \/ z = 2 \/ z = 3 \/ z = 4 \/ z = 5 \/ z = 6 \/ z = 7 \/ z = 8 \/ z = 9) by lia.
  decompose [or] C; subst; eexists; (split; [reflexivity|split; reflexivity]).
Qed.
Lemma bs_append a b : bs (a ++ b)%string = bs a ++ bs b.
Proof. unfold bs. induction a as [|c a IH]; [reflexivity|]. cbn. rewrite IH. reflexivity. Qed.
Ltac Zify.zify_post_hook ::= Z.div_mod_to_equations.
Lemma two_digits_facts z : 0 <= z < 100 -> two (bs (two_digits z)) /\ decimal (bs (two_digits z)) = z.
Proof.
  intros H. unfold two_digits. rewrite bs_append. destruct (digit_facts (z / 10)) as (a & -> & Da & Va); [lia|]. destruct (digit_facts (z mod 10)) as (b & -> & Db & Vb); [lia|].
  split; [split; [repeat constructor; assumption|reflexivity]|]. unfold decimal. cbn [app fold_left]. lia.
Qed.
Lemma four_digits_facts z : 0 <= z < 10000 -> digits (bs (four_digits z)) /\ List.length (bs (four_digits z)) = 4%nat /\ decimal (bs (four_digits z)) = z.
Proof.
  intros H. unfold four_digits, two_digits. rewrite !bs_append.
  destruct (digit_facts (z / 100 / 10)) as (a & -> & Da & Va); [lia|]. destruct (digit_facts (z / 100 mod 10)) as (b & -> & Db & Vb); [lia|].
  destruct (digit_facts (z mod 100 / 10)) as (c & -> & Dc & Vc); [lia|]. destruct (digit_facts (z mod 100 mod 10)) as (d & -> & Dd & Vd); [lia|].
  split; [repeat constructor; assumption|]. split; [reflexivity|]. unfold decimal. cbn [app fold_left]. lia.
Qed.

(** In particular the usual spelling of every date is read back. *)
Theorem C27_iso_round_trip : forall e g ref c, valid c -> 0 <= cy c <= 9999 ->
  exists res, x_res (execute e iso g (bs (four_digits (cy c) ++ "-" ++ two_digits (cm c) ++ "-" ++ two_digits (cd c))%string) ref) = Ret [res] /\
    date_certain (r_start res) c /\ untouched [WDay; Hour; Min; Sec; TzOffset] (r_start res) /\ has_end res = false.
Proof.
  intros e g ref c V Hy. pose proof V as [V1 V2]. pose proof (month_len_bounds (cy c) (cm c) V1) as B.
  destruct (four_digits_facts (cy c)) as (Dy & Ly & Ey); [lia|]. destruct (two_digits_facts (cm c)) as ((Dm & Lm) & Em); [lia|]. destruct (two_digits_facts (cd c)) as ((Dd & Ld) & Ed); [lia|].
  assert (T : bs (four_digits (cy c) ++ "-" ++ two_digits (cm c) ++ "-" ++ two_digits (cd c))%string = ymd_text (bs (four_digits (cy c))) (bs (two_digits (cm c))) (bs (two_digits (cd c)))).
  { rewrite !bs_append. reflexivity. }
  destruct (C27_iso_dates e g (bs (four_digits (cy c) ++ "-" ++ two_digits (cm c) ++ "-" ++ two_digits (cd c))%string) ref (bs (four_digits (cy c))) (bs (two_digits (cm c))) (bs (two_digits (cd c))) c)
    as (res & X & _ & _ & En & D & U); auto.
  - rewrite T. assert (Hl : forall w, digits w -> to_lower w = w).
    { induction 1 as [|x w Hx Hw IH]; [reflexivity|]. cbn. f_equal; [|exact IH]. unfold lower. clear - Hx. unfold is_digit, is_upper, in_range in *. 
      destruct ((code "A" <=? code x)%N && (code x <=? code "Z")%N) eqn:E; [|reflexivity]. change (code "0") with 48%N in Hx. change (code "9") with 57%N in Hx. change (code "A") with 65%N in E. lia. }
    unfold ymd_text. unfold to_lower in *. rewrite !map_app. rewrite (Hl _ Dy), (Hl _ Dm), (Hl _ Dd). reflexivity.
  - repeat split; auto; lia.
  - exists res. auto.
Qed.
Print Assumptions C27_iso_round_trip.

Example C27_case : exists r, iso_fields (bs "0987") (bs "2") (bs "28") /\ valid (Cal 987 2 28) /\ decimal (bs "0987") = 987 /\
  x_res (execute strict_env iso gwords_init (bs "0987-2-28") noon2024) = Ret [r] /\ getYear (r_start r) = 987.
Proof.
  eexists. split; [repeat split; try (repeat constructor); cbn; lia|]. split; [inst|]. split; [reflexivity|]. split; [vm_compute; reflexivity|]. vm_compute; reflexivity.
Qed.

(** C28 is false: the sign of "-00:30" is lost. *)
Theorem C28_iso_offset_refuted : exists r, let k := IsoClock (bs "10") (bs "20") None (Offset true (bs "00") true (bs "30")) in
  clock_ok k /\ zone_minutes (ic_z k) = -30 /\
  x_res (execute strict_env iso gwords_init (iso_text (bs "2012") (bs "03") (bs "04") (Some k)) noon2024) = Ret [r] /\ certain TzOffset 30 (r_start r).
Proof.
  eexists. cbv zeta. split; [repeat split; try (repeat constructor); cbn; auto|]. split; [reflexivity|]. split; [vm_compute; reflexivity|]. split; vm_compute; reflexivity.
Qed.
Print Assumptions C28_iso_offset_refuted.

(** For every such text: the written hour, minute, second and date; and the written offset unless it is negative with zero hours.
    (Missing: the offsets -00:01 to -00:59, whose sign the program drops.) *)
Theorem C28_iso_times_partial : forall e g text ref yy mm dd c k, to_lower text = ymd_text yy mm dd ++ clock_text k -> iso_fields yy mm dd -> clock_ok k ->
  decimal yy = cy c -> decimal mm = cm c -> decimal dd = cd c -> valid c ->
  exists res, x_res (execute e iso g text ref) = Ret [res] /\ r_text res = to_lower text /\ r_index res = 0 /\ has_end res = false /\
    date_certain (r_start res) c /\ unset WDay (r_start res) /\ certain Hour (decimal (ic_h k)) (r_start res) /\ certain Min (decimal (ic_m k)) (r_start res) /\
    match ic_s k with None => unset Sec (r_start res) | Some (ss, _) => certain Sec (decimal ss) (r_start res) end /\
    (match ic_z k with Offset true hh _ mm => decimal hh = 0 -> decimal mm = 0 | _ => True end -> certain TzOffset (zone_minutes (ic_z k)) (r_start res)).
Proof.
  intros e g text ref yy mm dd c k E F Dk Ey Em Ed [V1 V2]. pose proof (month_len_bounds (cy c) (cm c) V1) as B.
  destruct (iso_alone e g text ref yy mm dd (Some k)) as (res & X & T & Ix & En & D & U1 & Hh & Hm & Hs & Hz); auto; try lia.
  exists res. repeat (split; [assumption|]). rewrite Ey, Em, Ed in D. destruct c as [y m d]. split; [exact D|]. inversion U1; subst. repeat (split; [assumption|]).
  intros Z. destruct (ic_z k) as [| |[|] hh colon mm'] eqn:Ez; try exact Hz.
  - cbn [code_offset zone_minutes] in *. assert (0 <= decimal hh). { destruct Dk as (_ & _ & _ & Dz). rewrite Ez in Dz. apply (decimal_bounds hh). apply Dz. }
    destruct (0 <? decimal hh) eqn:L; cbn [andb] in Hz.
    + replace (-1 * (60 * decimal hh + decimal mm')) with (- (60 * decimal hh + decimal mm')) by lia. exact Hz.
    + assert (decimal hh = 0) as E0 by lia. rewrite E0 in *. rewrite (Z eq_refl) in *. exact Hz.
  - cbn [code_offset zone_minutes andb] in *. rewrite Z.mul_1_l. exact Hz.
Qed.
Print Assumptions C28_iso_times_partial.

Example C28_case : exists r, let k := IsoClock (bs "23") (bs "59") (Some (bs "07", bs "125")) (Offset true (bs "09") true (bs "30")) in
  to_lower (bs "1994-11-05T23:59:07.125-09:30") = ymd_text (bs "1994") (bs "11") (bs "05") ++ clock_text k /\ clock_ok k /\ zone_minutes (ic_z k) = -570 /\
  x_res (execute strict_env iso gwords_init (bs "1994-11-05T23:59:07.125-09:30") noon2024) = Ret [r] /\ certain TzOffset (-570) (r_start r) /\ certain Sec 7 (r_start r).
Proof.
  eexists. cbv zeta. split; [reflexivity|]. split; [repeat split; try (repeat constructor); cbn; auto|]. split; [reflexivity|]. split; [vm_compute; reflexivity|].
  split; split; vm_compute; reflexivity.
Qed.

(** C29 is false: 30 February and hour 99 are accepted. *)
Theorem C29_impossible_dates_refuted :
  (exists r, x_res (execute strict_env iso gwords_init (bs "2023-02-30") noon2024) = Ret [r] /\ on_date (r_start r) (Cal 2023 2 30) /\ ~ valid (Cal 2023 2 30)) /\
  (exists r, x_res (execute strict_env iso gwords_init (bs "2023-02-03T99:99") noon2024) = Ret [r] /\ certain Hour 99 (r_start r)).
Proof.
  split; eexists; (split; [vm_compute; reflexivity|]).
  - split; [concrete|]. intros [_ [_ H]]. vm_compute in H. apply H. reflexivity.
  - split; vm_compute; reflexivity.
Qed.
Print Assumptions C29_impossible_dates_refuted.

Lemma grp_lengths_stoi w n v : digits w -> (List.length w <= n)%nat -> (n <= 4)%nat -> stoi w = Ret v -> 0 <= v < 10 ^ Z.of_nat n.
Proof.
  intros D L N S. destruct w as [|c w]; [discriminate|]. rewrite stoi_short in S by (auto; cbn in *; lia). injection S as <-.
  pose proof (decimal_bounds _ D) as B. assert (10 ^ Z.of_nat (List.length (c :: w)) <= 10 ^ Z.of_nat n) by (apply Z.pow_le_mono_r; lia). lia.
Qed.

(** What every result of every text satisfies: month 1..12, day 1..31, year 0..9999, all certain; hour, minute and second have at most two digits.
    (Missing: days 29 to 31 of shorter months and hours, minutes and seconds up to 99 are let through.) *)
Theorem C29_impossible_dates_partial : forall e g text ref rs res, sane e ->
  x_res (execute e iso g text ref) = Ret rs -> In res rs ->
  exists y m d, date_certain (r_start res) (Cal y m d) /\ 0 <= y <= 9999 /\ 1 <= m <= 12 /\ 1 <= d <= 31 /\ has_end res = false /\
    0 <= getHour (r_start res) <= 99 /\ 0 <= getMinute (r_start res) <= 99 /\ 0 <= getSeconds (r_start res) <= 99.
Proof.
  intros e g text ref rs res He X I.
  destruct (results_from_pure e iso_pattern iso_extract g text _ rs res iso_re He in_iso iso_compile X I) as (off & m & r0 & S & L & Xr & P & ->).
  destruct (iso_match_groups _ _ S) as (G & G2 & L2). pose proof (fun n H => proj1 (G n H)) as Gd. pose proof (fun n H => proj2 (G n H)) as Gl. clear G.
  unfold iso_extract in Xr. apply bind_ret in Xr as (mo & Em & Xr). apply bind_ret in Xr as (d & Ed & Xr).
  destruct ((12 <? mo) || (mo <? 1) || (31 <? d) || (d <? 1)) eqn:B.
  { injection Xr as <-. exfalso. vm_compute in P. discriminate. }
  apply bind_ret in Xr as (y & Ey & Xr). apply bind_ret in Xr as (r1 & E1 & Xr).
  pose proof (grp_lengths_stoi _ 4 y G2 L2 ltac:(lia) Ey) as By. change (10 ^ Z.of_nat 4) with 10000 in By.
  exists y, mo, d. cbn [r_start res_copy has_end r_hasend]. injection Xr as <-.
  destruct (is_nil (grp m 5)).
  - injection E1 as <-. split; [comps|]. do 3 (split; [lia|]). split; [reflexivity|]. vm_compute. repeat split; discriminate.
  - apply bind_ret in E1 as (h & Eh & E1). apply bind_ret in E1 as (mi & Emi & E1). apply bind_ret in E1 as (r2 & E2 & E1). apply bind_ret in E1 as (o & Eo & E1). injection E1 as <-.
    assert (I5 : In 5%nat [3; 4; 5; 6; 7; 10]%nat) by (cbn; tauto). assert (I6 : In 6%nat [3; 4; 5; 6; 7; 10]%nat) by (cbn; tauto). assert (I7 : In 7%nat [3; 4; 5; 6; 7; 10]%nat) by (cbn; tauto).
    pose proof (grp_lengths_stoi _ 2 h (Gd _ I5) (Gl _ I5) ltac:(lia) Eh) as Bh. pose proof (grp_lengths_stoi _ 2 mi (Gd _ I6) (Gl _ I6) ltac:(lia) Emi) as Bmi.
    change (10 ^ Z.of_nat 2) with 100 in *. destruct (is_nil (grp m 7)).
    + injection E2 as <-. split; [comps|]. do 3 (split; [lia|]). split; [reflexivity|].
      change (0 <= h <= 99 /\ 0 <= mi <= 99 /\ 0 <= 0 <= 99). lia.
    + apply bind_ret in E2 as (s & Es & E2). injection E2 as <-. pose proof (grp_lengths_stoi _ 2 s (Gd _ I7) (Gl _ I7) ltac:(lia) Es) as Bs. change (10 ^ Z.of_nat 2) with 100 in *.
      split; [comps|]. do 3 (split; [lia|]). split; [reflexivity|]. change (0 <= h <= 99 /\ 0 <= mi <= 99 /\ 0 <= s <= 99). lia.
Qed.
Print Assumptions C29_impossible_dates_partial.

Lemma signed_lang w : lang true (pat "[+-]\d{2}") w -> exists (minus : bool) v, w = bs (if minus then "-" else "+") ++ v /\ digits v /\ List.length v = 2%nat.
Proof.
  intros L. assert (P : pat "[+-]\d{2}" = RCat (RSet false [CChar "+"; CChar "-"]) (RCat (RSet false [CClass false KDigit]) (RSet false [CClass false KDigit]))) by (vm_compute; reflexivity).
  rewrite P in L. destruct L as (a & v & -> & (c & -> & Hc) & (b & d & -> & (c1 & -> & H1) & (c2 & -> & H2))).
  assert (Dg : forall c, set_ok true false [CClass false KDigit] c = is_digit c). { intros x. apply Bool.eqb_prop. revert x. apply forall_ascii. vm_compute. reflexivity. }
  rewrite Dg in H1, H2.
  assert (Sg : implb (set_ok true false [CChar "+"; CChar "-"] c) (Ascii.eqb c "+" || Ascii.eqb c "-") = true). { revert c Hc. intros c _. revert c. apply forall_ascii. vm_compute. reflexivity. }
  rewrite Hc in Sg. cbn [implb] in Sg. apply Bool.orb_true_iff in Sg as [E|E]; apply Ascii.eqb_eq in E; subst c; [exists false|exists true]; exists [c1; c2];
    (split; [reflexivity|split; [repeat constructor; assumption|reflexivity]]).
Qed.

Lemma iso_shapes : all_shapes (fun l => mem 2 l && mem 3 l && mem 4 l && implb (mem 5 l) (mem 6 l)) iso_re = true.
Proof. vm_compute. reflexivity. Qed.

(** C61.  The ISO parser returns normally on every text and for every reference. *)
Theorem C61_iso_returns : forall e g text ref, benign e -> exists rs, x_res (execute e iso g text ref) = Ret rs.
Proof.
  intros e g text ref He. apply (execute_total_pure e iso_pattern iso_extract iso_re).
  - apply Nat.leb_le. vm_compute. reflexivity.
  - exact iso_compile.
  - intros off m idx S L.
    pose proof (shapes_check true iso_re _ m _ iso_shapes S) as Sh. cbv beta in Sh. apply andb_prop in Sh as [Sh S6]. apply andb_prop in Sh as [Sh S4]. apply andb_prop in Sh as [S2 S3].
    assert (St : forall n len, group_within n len is_digit iso_re = true -> n <> 0%nat -> (len <= 4)%nat -> is_nil (grp m n) = false -> exists v, stoi (grp m n) = Ret v).
    { intros n len Hw Hn Hl Nn. destruct (grp_within iso_re _ m n len is_digit S Hn Hw) as [D Ln]. exists (decimal (grp m n)). apply stoi_short; [exact D|]. destruct (grp m n); [discriminate|cbn [List.length] in *; lia]. }
    assert (Nil : forall n, n <> 0%nat -> nonempty_group n iso_re = true -> is_nil (grp m n) = negb (mem n (map fst (m_caps m)))) by (intros; eapply grp_present; eauto).
    destruct (St 3%nat 2%nat) as [mo Em]; [vm_compute; reflexivity|lia|lia|rewrite Nil, S3 by (try lia; vm_compute; reflexivity); reflexivity|].
    destruct (St 4%nat 2%nat) as [d Ed]; [vm_compute; reflexivity|lia|lia|rewrite Nil, S4 by (try lia; vm_compute; reflexivity); reflexivity|].
    destruct (St 2%nat 4%nat) as [y Ey]; [vm_compute; reflexivity|lia|lia|rewrite Nil, S2 by (try lia; vm_compute; reflexivity); reflexivity|].
    unfold iso_extract. rewrite Em, Ed, Ey. cbn [bind].
    destruct ((12 <? mo) || (mo <? 1) || (31 <? d) || (d <? 1)) eqn:B; [eexists; split; [reflexivity|right; intros; apply He]|].
    destruct (is_nil (grp m 5)) eqn:N5.
    + cbn [bind]. eexists. split; [reflexivity|]. right. intros; apply He.
    + rewrite Nil in N5 by (try lia; vm_compute; reflexivity). apply Bool.negb_false_iff in N5. rewrite N5 in S6. cbn [implb] in S6.
      destruct (St 5%nat 2%nat) as [h Eh]; [vm_compute; reflexivity|lia|lia|rewrite Nil, N5 by (try lia; vm_compute; reflexivity); reflexivity|].
      destruct (St 6%nat 2%nat) as [mi Emi]; [vm_compute; reflexivity|lia|lia|rewrite Nil, S6 by (try lia; vm_compute; reflexivity); reflexivity|].
      rewrite Eh, Emi. cbn [bind].
      assert (O : exists o, iso_offset (grp m 9) (grp m 10) = Ret o).
      { unfold iso_offset. destruct (is_nil (grp m 9)) eqn:N9; [eauto|].
        assert (S9 : exists v, stoi (grp m 9) = Ret v).
        { destruct (grp_ok _ _ _ 9%nat (search_caps _ _ _ _ S)) as [E|(a & Ia & La)]; [lia|rewrite E in N9; discriminate|].
          assert (a = pat "[+-]\d{2}") as ->. { vm_compute in Ia. decompose [or] Ia; try contradiction; match goal with H : (_, _) = (_, _) |- _ => injection H; intros; subst; first [discriminate|vm_compute; reflexivity] end. }
          destruct (signed_lang _ La) as (sg & w & E & Dw & Lw). rewrite E. eexists. apply stoi_signed; [exact Dw|lia]. }
        destruct S9 as [v ->]. cbn [bind]. destruct (is_nil (grp m 10)) eqn:N10; [cbn [bind]; eauto|].
        destruct (St 10%nat 2%nat) as [w ->]; [vm_compute; reflexivity|lia|lia|exact N10|]. cbn [bind]. eauto. }
      destruct O as [o ->]. destruct (is_nil (grp m 7)) eqn:N7.
      * cbn [bind]. eexists. split; [reflexivity|]. right. intros; apply He.
      * destruct (St 7%nat 2%nat) as [s Es]; [vm_compute; reflexivity|lia|lia|exact N7|]. rewrite Es. cbn [bind]. eexists. split; [reflexivity|]. right. intros; apply He.
Qed.
Print Assumptions C61_iso_returns.
