(** * Every ISO result, in any text, says what is written (C83) *)
From Verif Require Import Base Regex RegexParse Calendar Components Utils Execute Spec View ParserSpec CalendarCycle CalendarFacts RegexFacts ResultFacts
  ExecuteFacts ParserRe MatchFacts ShapeFacts LocateFacts HistoryFacts ParserFacts CasualFacts NumberFacts Symbolic ISOFacts ISOShape RelativeFacts Main P_ISO Prop_Execute Prop_Casual Prop_ISO.
From Coq Require Import ZifyBool ZifyNat ZifyN.
Open Scope string_scope.
Open Scope list_scope.
Open Scope Z_scope.

Lemma short_stoi w : short w -> stoi w = Ret (decimal w) /\ is_nil w = false.
Proof. intros [D L]. split; [apply stoi_short; [exact D|lia]|]. destruct w; [cbn in L; lia|reflexivity]. Qed.
Lemma offset_loose z : zone_loose z -> forall g9 g10, match z with NoZone | Zulu => g9 = [] | Offset minus hh _ mm => g9 = bs (if minus then "-" else "+") ++ hh /\ g10 = mm end ->
  iso_offset g9 g10 = Ret (code_offset z).
Proof.
  intros Zo g9 g10 G. destruct z as [| |minus hh col mm]; [apply (iso_offset_ok NoZone I _ _ G)|apply (iso_offset_ok Zulu I _ _ G)|].
  apply (iso_offset_ok (Offset minus hh false mm)); [|exact G]. destruct Zo as ((D & L) & [(Dm & Lm)| -> ]); repeat split; auto. constructor.
Qed.
(** the extraction, for every match *)
Lemma iso_extract_loose e g tx m ref idx yy mm dd k : date_loose yy mm dd -> match k with None => True | Some k => clock_loose k end -> iso_groups m yy mm dd k ->
  exists res, iso_extract e g tx m ref idx = Ret res /\ r_text res = m_str m /\ has_end res = false /\
    ((1 <= decimal mm <= 12 /\ 1 <= decimal dd <= 31 /\ iso_said (r_start res) yy mm dd k) \/ hasPossibleDates res = false).
Proof.
  intros (Dy & Ly & Sm & Sd) Dk (G2 & G3 & G4 & G). unfold iso_extract. rewrite G2, G3, G4. rewrite (proj1 (short_stoi _ Sm)), (proj1 (short_stoi _ Sd)), stoi_short by (auto; lia). cbn [bind].
  destruct ((12 <? decimal mm) || (decimal mm <? 1) || (31 <? decimal dd) || (decimal dd <? 1)) eqn:B; [eexists; split; [reflexivity|]; do 2 (split; [reflexivity|]); right; reflexivity|].
  destruct k as [[h mi s z]|]; cbn [ic_h ic_m ic_s ic_z] in *.
  - destruct G as (G5 & G6 & G7 & G9). destruct Dk as (D1 & D2 & D3 & D4). cbn [ic_h ic_m ic_s ic_z] in *.
    destruct (short_stoi _ D1) as [S1 N1], (short_stoi _ D2) as [S2 N2]. rewrite G5, G6, G7, N1, S1, S2. cbn [bind]. rewrite (offset_loose z D4 _ _ G9).
    destruct s as [[ss fr]|].
    + destruct D3 as (D3 & _). destruct (short_stoi _ D3) as [S3 N3]. rewrite N3, S3. cbn [bind]. eexists. split; [reflexivity|]. do 2 (split; [reflexivity|]). left. split; [lia|]. split; [lia|].
      unfold iso_said. cbn [ic_h ic_m ic_s ic_z]. repeat split; comps.
    + cbn [is_nil bind]. eexists. split; [reflexivity|]. do 2 (split; [reflexivity|]). left. split; [lia|]. split; [lia|]. unfold iso_said. cbn [ic_h ic_m ic_s ic_z]. repeat split; comps.
  - rewrite G. cbn [is_nil bind]. eexists. split; [reflexivity|]. do 2 (split; [reflexivity|]). left. split; [lia|]. split; [lia|]. repeat split; comps.
Qed.

(** C83.  Every result of every text: its text is a date of a four-digit year with one- or two-digit month and day, possibly with a time of day; the month is 1 to
    12 and the day 1 to 31; date, hour, minute and second are the written numbers and certain; what is not written is untouched; the offset is the written
    one, except that the minus sign of an offset with zero hours is lost; there is no end. *)
Theorem C83_every_iso : forall e g text ref rs res, sane e -> x_res (execute e iso g text ref) = Ret rs -> In res rs ->
  let p := r_start res in
  exists yy mm dd k, r_text res = iso_text yy mm dd k /\ date_loose yy mm dd /\ 1 <= decimal mm <= 12 /\ 1 <= decimal dd <= 31 /\ has_end res = false /\
    date_certain p (Cal (decimal yy) (decimal mm) (decimal dd)) /\ unset WDay p /\
    match k with
    | None => untouched [Hour; Min; Sec; TzOffset] p
    | Some c => clock_loose c /\ certain Hour (decimal (ic_h c)) p /\ certain Min (decimal (ic_m c)) p /\
        match ic_s c with None => unset Sec p | Some (ss, _) => certain Sec (decimal ss) p end /\
        match ic_z c with
        | Offset true hh _ mi => certain TzOffset (if decimal hh =? 0 then decimal mi else zone_minutes (ic_z c)) p
        | z => certain TzOffset (zone_minutes z) p
        end
    end.
Proof.
  intros e g text ref rs res He X I. cbv zeta.
  destruct (results_from_pure e iso_pattern iso_extract g text _ rs res iso_re He in_iso iso_compile X I) as (off & m & r0 & S & L & Xr & P & ->).
  destruct (iso_match _ _ S L) as (yy & mm & dd & k & Em & Dl & Kl & G). destruct (iso_extract_loose e g (skipn off (to_lower text)) m ref (Z.of_nat (off + m_pos m)) yy mm dd k Dl Kl G) as (r1 & X1 & T & En & Q).
  rewrite X1 in Xr. apply RelativeFacts.ret_inj in Xr. subst r1. destruct Q as [(Bm & Bd & Sd)|N]; [|congruence].
  exists yy, mm, dd, k. cbn [r_text r_start res_copy has_end r_hasend]. split; [congruence|]. do 4 (split; [assumption|]). destruct Sd as (D & U & K). split; [exact D|]. split; [inversion U; assumption|].
  destruct k as [[h mi s z]|]; [|exact K]. cbn [ic_h ic_m ic_s ic_z] in *. destruct K as (K1 & K2 & K3 & K4). do 4 (split; [assumption|]).
  destruct z as [| |[|] hh col mi']; cbn [code_offset zone_minutes andb] in *; try exact K4.
  - destruct Kl as (_ & _ & _ & ((Dh & _) & _)). pose proof (decimal_bounds _ Dh). destruct (decimal hh =? 0) eqn:E.
    + replace (0 <? decimal hh) with false in K4 by lia. replace (60 * decimal hh + decimal mi') with (decimal mi') in K4 by lia. exact K4.
    + replace (0 <? decimal hh) with true in K4 by lia. replace (-1 * (60 * decimal hh + decimal mi')) with (- (60 * decimal hh + decimal mi')) by lia. exact K4.
  - replace (1 * (60 * decimal hh + decimal mi')) with (60 * decimal hh + decimal mi') by lia. exact K4.
Qed.
Print Assumptions C83_every_iso.
Example C83_case : exists r1 r2, x_res (execute strict_env iso gwords_init (bs "Between 2024-2-9T7:05:3.25-03:30 and 2024-02-10 at noon") noon2024) = Ret [r1; r2] /\
  r_text r1 = iso_text (bs "2024") (bs "2") (bs "9") (Some (IsoClock (bs "7") (bs "05") (Some (bs "3", bs "25")) (Offset true (bs "03") true (bs "30")))) /\
  certain TzOffset (-210) (r_start r1) /\ r_text r2 = iso_text (bs "2024") (bs "02") (bs "10") None /\ date_certain (r_start r2) (Cal 2024 2 10).
Proof. eexists _, _. split; [vm_compute; reflexivity|]. split; [vm_compute; reflexivity|]. split; [split; vm_compute; reflexivity|]. split; [vm_compute; reflexivity|]. repeat split; vm_compute; reflexivity. Qed.
