(** * ISOShape: every match of the ISO pattern, read back as a written date with an optional time of day *)
From Verif Require Import Base Regex RegexParse Calendar Components Utils Execute Spec View ParserSpec CalendarFacts RegexFacts ResultFacts Template
  ExecuteFacts ParserRe MatchFacts HistoryFacts ParserFacts CasualFacts NumberFacts Symbolic ISOFacts P_ISO.
From Coq Require Import ZifyBool ZifyNat ZifyN.
Open Scope string_scope.
Open Scope list_scope.
Open Scope Z_scope.

(** one or two digits *)
Definition short (w : bytes) : Prop := digits w /\ (1 <= List.length w <= 2)%nat.
(** the time of day as the format allows it: one or two digits each, up to four digits of fraction, an offset with a two-digit hour and possibly a colon and two-digit minutes *)
Definition zone_loose (z : zone) : Prop :=
  match z with NoZone | Zulu => True | Offset _ hh _ mm => two hh /\ (two mm \/ mm = []) end.
Definition clock_loose (k : iso_clock) : Prop :=
  short (ic_h k) /\ short (ic_m k) /\ match ic_s k with None => True | Some (ss, fr) => short ss /\ digits fr /\ (List.length fr <= 4)%nat end /\ zone_loose (ic_z k).
Definition date_loose (yy mm dd : bytes) : Prop := digits yy /\ List.length yy = 4%nat /\ short mm /\ short dd.

Lemma at_least r n w : Nat.leb n (min_len r) = true -> lang true r w -> (n <= List.length w)%nat.
Proof. intros B L. apply Nat.leb_le in B. pose proof (min_len_ok _ _ _ L). lia. Qed.
Lemma D12_short w : lang true D12 w -> short w.
Proof. intros L. split; [apply (only_ok true is_digit D12); [vm_compute; reflexivity|exact L]|]. split; [apply (at_least _ 1%nat) in L; [exact L|vm_compute; reflexivity]|apply (max_len_ok _ _ _ 2%nat L); vm_compute; reflexivity]. Qed.
Lemma D4_four w : lang true D4 w -> digits w /\ List.length w = 4%nat.
Proof.
  intros L. split; [apply (only_ok true is_digit D4); [vm_compute; reflexivity|exact L]|].
  assert (4 <= List.length w)%nat by (apply (at_least _ 4%nat) in L; [exact L|vm_compute; reflexivity]). assert (List.length w <= 4)%nat by (apply (max_len_ok _ _ _ 4%nat L); vm_compute; reflexivity). lia.
Qed.

Lemma only_char set x w : forallb (fun c => implb (set_ok true false set c && is_low c) (Ascii.eqb c x)) all_ascii = true -> lang true (RSet false set) w -> low w -> w = [x].
Proof.
  intros B (c & -> & H) L. inversion L as [|? ? Lc _]; subst. f_equal. apply Ascii.eqb_eq. pose proof (forall_ascii _ B c) as Q. cbv beta in Q. rewrite H, Lc in Q. exact Q.
Qed.
Lemma dash_is w : lang true dash w -> low w -> w = bs "-". Proof. apply only_char. vm_compute. reflexivity. Qed.
Lemma colon_is w : lang true colon w -> low w -> w = bs ":". Proof. apply only_char. vm_compute. reflexivity. Qed.
Lemma t_is w : lang true (pat "T") w -> low w -> w = bs "t".
Proof. replace (pat "T") with (RSet false [CChar "T"]) by (vm_compute; reflexivity). apply only_char. vm_compute. reflexivity. Qed.
Lemma z_is w : lang true (pat "Z") w -> low w -> w = bs "z".
Proof. replace (pat "Z") with (RSet false [CChar "Z"]) by (vm_compute; reflexivity). apply only_char. vm_compute. reflexivity. Qed.
Lemma dot_is w : lang true (pat "\.") w -> low w -> w = bs ".".
Proof. replace (pat "\.") with (RSet false [CChar "."]) by (vm_compute; reflexivity). apply only_char. vm_compute. reflexivity. Qed.
Lemma frac_is w : lang true (pat "\d{1,4}") w -> digits w /\ (1 <= List.length w <= 4)%nat.
Proof. intros L. split; [apply (only_ok true is_digit (pat "\d{1,4}")); [vm_compute; reflexivity|exact L]|]. split; [apply (at_least _ 1%nat) in L; [exact L|vm_compute; reflexivity]|apply (max_len_ok _ _ _ 4%nat L); vm_compute; reflexivity]. Qed.
Lemma two_is w : lang true (pat "\d{2}") w -> two w.
Proof.
  intros L. split; [apply (only_ok true is_digit (pat "\d{2}")); [vm_compute; reflexivity|exact L]|].
  assert (2 <= List.length w)%nat by (apply (at_least _ 2%nat) in L; [exact L|vm_compute; reflexivity]). assert (List.length w <= 2)%nat by (apply (max_len_ok _ _ _ 2%nat L); vm_compute; reflexivity). lia.
Qed.
Lemma sign_is w : lang true (pat "[+-]\d{2}") w -> exists (minus : bool) v, w = bs (if minus then "-" else "+") ++ v /\ two v.
Proof.
  replace (pat "[+-]\d{2}") with (RCat (RSet false [CChar "+"; CChar "-"]) (pat "\d{2}")) by (vm_compute; reflexivity). intros (a & v & -> & (c & -> & Hc) & Lv). apply two_is in Lv.
  assert (Sg : implb (set_ok true false [CChar "+"; CChar "-"] c) (Ascii.eqb c "+" || Ascii.eqb c "-") = true) by (clear Hc; revert c; apply forall_ascii; vm_compute; reflexivity).
  rewrite Hc in Sg. cbn [implb] in Sg. apply Bool.orb_true_iff in Sg as [E|E]; apply Ascii.eqb_eq in E; subst c; [exists false|exists true]; exists v; auto.
Qed.

Definition frac_text (fr : bytes) : bytes := match fr with [] => [] | _ => bs "." ++ fr end.
Definition sec_text (s : option (bytes * bytes)) : bytes := match s with None => [] | Some (ss, fr) => bs ":" ++ ss ++ frac_text fr end.
Definition frac_caps (fr : bytes) : list (nat * bytes) := match fr with [] => [] | _ => [(8%nat, fr)] end.
Definition sec_caps (s : option (bytes * bytes)) : list (nat * bytes) := match s with None => [] | Some (ss, fr) => frac_caps fr ++ [(7%nat, ss)] end.
Definition zone_caps (z : zone) : list (nat * bytes) :=
  match z with NoZone | Zulu => [] | Offset minus hh _ mm => (match mm with [] => [] | _ => [(10%nat, mm)] end) ++ [(9%nat, bs (if minus then "-" else "+") ++ hh)] end.
Definition clock_caps (k : iso_clock) : list (nat * bytes) := zone_caps (ic_z k) ++ sec_caps (ic_s k) ++ [(6%nat, ic_m k); (5%nat, ic_h k)].

Lemma mt_frac p t c s' : low t -> mt true (ROpt true iso_frac) (mkst p t c) s' ->
  exists fr, digits fr /\ (List.length fr <= 4)%nat /\ t = frac_text fr ++ s_rest s' /\ s_caps s' = frac_caps fr ++ c.
Proof.
  intros Lt [->|(s1 & M1 & M2)]; [exists []; repeat split; [constructor|cbn; lia]|].
  apply mt_plain_inv in M1; [|reflexivity]. destruct M1 as (w & t1 & -> & L1 & ->). apply low_app in Lt as [Lw Lt].
  apply mt_grp_inv in M2; [|reflexivity]. destruct M2 as (fr & t2 & -> & L2 & ->). apply dot_is in L1; [|exact Lw]. subst w. destruct (frac_is _ L2) as [D B].
  exists fr. cbn [s_rest s_caps]. split; [exact D|]. split; [lia|]. destruct fr as [|x fr]; [cbn in B; lia|]. cbn [frac_text frac_caps]. rewrite <- app_assoc. auto.
Qed.
Lemma mt_sec p t c s' : low t -> mt true (ROpt true (RCat colon (RCat (RGrp 7 D12) (ROpt true iso_frac)))) (mkst p t c) s' ->
  exists s, match s with None => True | Some (ss, fr) => short ss /\ digits fr /\ (List.length fr <= 4)%nat end /\ t = sec_text s ++ s_rest s' /\ s_caps s' = sec_caps s ++ c.
Proof.
  intros Lt [->|(s1 & M1 & s2 & M2 & M3)]; [exists None; repeat split|].
  apply mt_plain_inv in M1; [|reflexivity]. destruct M1 as (w & t1 & -> & L1 & ->). apply low_app in Lt as [Lw Lt]. apply colon_is in L1; [|exact Lw]. subst w.
  apply mt_grp_inv in M2; [|reflexivity]. destruct M2 as (ss & t2 & -> & L2 & ->). apply low_app in Lt as [_ Lt]. apply D12_short in L2.
  apply (mt_frac _ _ _ _ Lt) in M3 as (fr & D & B & -> & C). exists (Some (ss, fr)). split; [auto|]. cbn [sec_text sec_caps]. rewrite C, <- !app_assoc. auto.
Qed.
Lemma mt_zone p t c s' : low t -> mt true (ROpt true iso_zone) (mkst p t c) s' ->
  exists z, zone_loose z /\ t = zone_text z ++ s_rest s' /\ s_caps s' = zone_caps z ++ c.
Proof.
  intros Lt [->|[M|(s1 & M1 & s2 & M2 & M3)]]; [exists NoZone; repeat split| |].
  - apply mt_plain_inv in M; [|reflexivity]. destruct M as (w & t1 & -> & L1 & ->). apply low_app in Lt as [Lw Lt]. apply z_is in L1; [|exact Lw]. subst w. exists Zulu. repeat split.
  - apply mt_grp_inv in M1; [|reflexivity]. destruct M1 as (w & t1 & -> & L1 & ->). apply low_app in Lt as [Lw Lt]. apply sign_is in L1 as (minus & hh & -> & Th).
    assert (Q : exists col : bool, t1 = (if col then bs ":" else []) ++ s_rest s2 /\ s_caps s2 = (9%nat, bs (if minus then "-" else "+") ++ hh) :: c).
    { destruct M2 as [->|M2]; [exists false; auto|]. apply mt_plain_inv in M2; [|reflexivity]. destruct M2 as (w & t2 & -> & L2 & ->). apply low_app in Lt as [Lw2 Lt]. apply colon_is in L2; [|exact Lw2]. subst w. exists true. auto. }
    destruct Q as (col & -> & C). destruct s2 as [p2 r2 c2]. cbn [s_rest s_caps] in *. subst c2.
    destruct M3 as [->|M3].
    + exists (Offset minus hh col []). split; [split; [exact Th|auto]|]. cbn [zone_text zone_caps s_rest s_caps app]. rewrite <- !app_assoc. auto.
    + apply mt_grp_inv in M3; [|reflexivity]. destruct M3 as (mm & t3 & -> & L3 & ->). apply two_is in L3. exists (Offset minus hh col mm). split; [split; auto|].
      cbn [zone_text zone_caps s_rest s_caps]. rewrite <- !app_assoc. split; [reflexivity|]. destruct mm as [|x mm]; [destruct L3; discriminate|reflexivity].
Qed.
Lemma mt_time p t c s' : low t -> mt true (ROpt true iso_time) (mkst p t c) s' ->
  exists k, match k with None => True | Some k => clock_loose k end /\ t = match k with None => [] | Some k => clock_text k end ++ s_rest s' /\ s_caps s' = match k with None => [] | Some k => clock_caps k end ++ c.
Proof.
  intros Lt [->|(s1 & M1 & s2 & M2 & s3 & M3 & s4 & M4 & s5 & M5 & M6)]; [exists None; repeat split|].
  apply mt_plain_inv in M1; [|reflexivity]. destruct M1 as (w & t1 & -> & L1 & ->). apply low_app in Lt as [Lw Lt]. apply t_is in L1; [|exact Lw]. subst w.
  apply mt_grp_inv in M2; [|reflexivity]. destruct M2 as (h & t2 & -> & L2 & ->). apply low_app in Lt as [_ Lt]. apply D12_short in L2.
  apply mt_plain_inv in M3; [|reflexivity]. destruct M3 as (w & t3 & -> & L3 & ->). apply low_app in Lt as [Lw3 Lt]. apply colon_is in L3; [|exact Lw3]. subst w.
  apply mt_grp_inv in M4; [|reflexivity]. destruct M4 as (mi & t4 & -> & L4 & ->). apply low_app in Lt as [_ Lt]. apply D12_short in L4.
  apply (mt_sec _ _ _ _ Lt) in M5 as (s & Hs & -> & C5). apply low_app in Lt as [_ Lt]. destruct s5 as [p5 r5 c5]. cbn [s_rest s_caps] in *. subst c5.
  apply (mt_zone _ _ _ _ Lt) in M6 as (z & Hz & -> & C6). exists (Some (IsoClock h mi s z)). split; [unfold clock_loose; cbn [ic_h ic_m ic_s ic_z]; auto|].
  unfold clock_text, clock_caps. cbn [ic_h ic_m ic_s ic_z]. rewrite C6, <- !app_assoc. split; [|reflexivity]. reflexivity.
Qed.
Lemma iso_match tx m : search true iso_re tx = Some m -> low tx ->
  exists yy mm dd k, m_str m = iso_text yy mm dd k /\ date_loose yy mm dd /\ match k with None => True | Some k => clock_loose k end /\ iso_groups m yy mm dd k.
Proof.
  intros S Lw. shape S. rewrite Et in Lw. apply low_app in Lw as [_ Lw]. unfold same in Es. rewrite <- Es in Lw. unfold iso_re in M.
  destruct M as (s1 & M1 & M). apply mt_WB in M1 as [_ ->]. destruct M as (s2 & M2 & M). apply mt_grp_inv in M2; [|reflexivity]. destruct M2 as (yy & t2 & E2 & L2 & ->). rewrite E2 in Lw. apply low_app in Lw as [_ Lw]. apply D4_four in L2 as [Dy Ly].
  destruct M as (s3 & M3 & M). apply mt_plain_inv in M3; [|reflexivity]. destruct M3 as (w & t3 & E3 & L3 & ->). rewrite E3 in Lw. apply low_app in Lw as [Lw3 Lw]. apply dash_is in L3; [|exact Lw3]. subst w.
  destruct M as (s4 & M4 & M). apply mt_grp_inv in M4; [|reflexivity]. destruct M4 as (mm & t4 & E4 & L4 & ->). rewrite E4 in Lw. apply low_app in Lw as [_ Lw]. apply D12_short in L4.
  destruct M as (s5 & M5 & M). apply mt_plain_inv in M5; [|reflexivity]. destruct M5 as (w & t5 & E5 & L5 & ->). rewrite E5 in Lw. apply low_app in Lw as [Lw5 Lw]. apply dash_is in L5; [|exact Lw5]. subst w.
  destruct M as (s6 & M6 & M). apply mt_grp_inv in M6; [|reflexivity]. destruct M6 as (dd & t6 & E6 & L6 & ->). rewrite E6 in Lw. apply low_app in Lw as [_ Lw]. apply D12_short in L6.
  destruct M as (s7 & M7 & M8). apply (mt_time _ _ _ _ Lw) in M7 as (k & Hk & E7 & C7). destruct s7 as [p7 r7 c7]. cbn [s_rest s_caps] in *. apply mt_WB in M8 as [_ ->]. cbn [s_rest s_caps] in *. subst c7.
  exists yy, mm, dd, k. split.
  { apply (app_inv_tail r7). rewrite <- Es, E2, E3, E4, E5, E6, E7. unfold iso_text, ymd_text. rewrite <- !app_assoc. reflexivity. }
  split; [split; [exact Dy|split; [exact Ly|auto]]|]. split; [exact Hk|]. unfold iso_groups, grp. rewrite C.
  destruct k as [[h mi s z]|]; [|repeat split]. unfold clock_caps. cbn [ic_h ic_m ic_s ic_z] in *. destruct Hk as (_ & _ & _ & Hz). cbn [ic_z] in Hz.
  destruct z as [| |minus hh col mm']; [| |destruct mm' as [|x mm']]; (destruct s as [[ss [|y fr]]|]); cbn [zone_caps sec_caps frac_caps app cap_lookup Nat.eqb]; repeat split.
Qed.
Print Assumptions iso_match.
