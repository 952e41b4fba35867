(** * ISOFacts: ISO dates and date-times *)
From Verif Require Import Base Regex RegexParse Calendar Components Utils Execute Spec View ParserSpec CalendarFacts RegexFacts ResultFacts Template
  ExecuteFacts ParserRe MatchFacts HistoryFacts ParserFacts CasualFacts NumberFacts Symbolic P_ISO.
From Coq Require Import ZifyBool ZifyNat ZifyN.
Open Scope string_scope.
Open Scope list_scope.
Open Scope Z_scope.

Lemma iso_digit : class_alike true iso_re is_digit "5" = true.
Proof. vm_compute. reflexivity. Qed.
Definition as5 (w : bytes) : list pchar := map (fun c => (c, "5"%char)) w.
Definition lit (w : bytes) : list pchar := map (fun c => (c, c)) w.
Lemma acts_as5 w : acts (as5 w) = w.
Proof. unfold acts, as5. rewrite map_map. apply map_id. Qed.
Lemma acts_lit w : acts (lit w) = w.
Proof. unfold acts, lit. rewrite map_map. apply map_id. Qed.
Lemma acts_app a b : acts (a ++ b) = acts a ++ acts b.
Proof. apply map_app. Qed.
Lemma alike_as5 ic r w : class_alike ic r is_digit "5" = true -> digits w -> Forall (alike ic r) (as5 w).
Proof. intros C D. induction D as [|c w Hc D IH]; cbn; constructor; [|exact IH]. apply (class_alike_ok _ _ _ _ C). exact Hc. Qed.
Lemma alike_lit ic r w : Forall (alike ic r) (lit w).
Proof. induction w as [|c w IH]; cbn; constructor; [apply alike_self|exact IH]. Qed.

Lemma app_forall {A} (P : A -> Prop) a b : Forall P a -> Forall P b -> Forall P (a ++ b).
Proof. intros. apply Forall_app. auto. Qed.
(** splitting digit strings of known length *)
Lemma len1 (w : bytes) : List.length w = 1%nat -> exists a, w = [a].
Proof. destruct w as [|a [|b w]]; cbn; intros; try lia. eauto. Qed.
Lemma len2 (w : bytes) : List.length w = 2%nat -> exists a b, w = [a; b].
Proof. destruct w as [|a [|b [|c w]]]; cbn; intros; try lia. eauto. Qed.
Lemma len4 (w : bytes) : List.length w = 4%nat -> exists a b c d, w = [a; b; c; d].
Proof. destruct w as [|a [|b [|c [|d [|e w]]]]]; cbn; intros; try lia. eauto 6. Qed.
Lemma len12 (w : bytes) : (1 <= List.length w <= 2)%nat -> (exists a, w = [a]) \/ exists a b, w = [a; b].
Proof. intros H. destruct w as [|a [|b [|c w]]]; cbn in H; try lia; eauto. Qed.


(** the text of a date with an optional time of day *)
Definition iso_text (yy mm dd : bytes) (k : option iso_clock) : bytes := ymd_text yy mm dd ++ match k with None => [] | Some k => clock_text k end.

(** the same text with "5" as the representative of every digit *)
Definition sym_zone (z : zone) : list pchar :=
  match z with
  | NoZone => []
  | Zulu => lit (bs "z")
  | Offset minus hh colon mm => lit (bs (if minus then "-" else "+")) ++ as5 hh ++ (if colon then lit (bs ":") else []) ++ as5 mm
  end.
Definition sym_clock (k : iso_clock) : list pchar :=
  lit (bs "t") ++ as5 (ic_h k) ++ lit (bs ":") ++ as5 (ic_m k) ++
  match ic_s k with None => [] | Some (ss, fr) => lit (bs ":") ++ as5 ss ++ match fr with [] => [] | _ => lit (bs ".") ++ as5 fr end end ++
  sym_zone (ic_z k).
Definition sym_iso (yy mm dd : bytes) (k : option iso_clock) : list pchar :=
  as5 yy ++ lit (bs "-") ++ as5 mm ++ lit (bs "-") ++ as5 dd ++ match k with None => [] | Some k => sym_clock k end.

Lemma acts_iso yy mm dd k : acts (sym_iso yy mm dd k) = iso_text yy mm dd k.
Proof.
  unfold sym_iso, iso_text, ymd_text. repeat rewrite acts_app. rewrite !acts_as5, !acts_lit, <- !app_assoc. repeat f_equal.
  destruct k as [[h mi s z]|]; [|reflexivity]. unfold sym_clock, clock_text. cbn [ic_h ic_m ic_s ic_z]. repeat rewrite acts_app. rewrite !acts_as5, !acts_lit.
  repeat f_equal.
  - destruct s as [[ss fr]|]; [|reflexivity]. repeat rewrite acts_app. rewrite acts_as5, acts_lit. do 2 f_equal. destruct fr as [|f fr]; [reflexivity|].
    rewrite acts_app, acts_as5, acts_lit. reflexivity.
  - destruct z as [| |minus hh colon mm']; [reflexivity|apply acts_lit|]. cbn [sym_zone zone_text]. repeat rewrite acts_app. rewrite !acts_as5, acts_lit. destruct colon; rewrite ?acts_lit; reflexivity.
Qed.
Lemma alike_iso yy mm dd k : digits yy -> digits mm -> digits dd -> match k with None => True | Some k => clock_ok k end -> Forall (alike true iso_re) (sym_iso yy mm dd k).
Proof.
  intros Dy Dm Dd Dk. unfold sym_iso. repeat apply app_forall; try apply alike_lit; try (apply alike_as5; [exact iso_digit|assumption]).
  destruct k as [[h mi s z]|]; [|constructor]. destruct Dk as ((D1 & _) & (D2 & _) & D3 & D4). unfold sym_clock. cbn [ic_h ic_m ic_s ic_z] in *.
  repeat apply app_forall; try apply alike_lit; try (apply alike_as5; [exact iso_digit|assumption]).
  - destruct s as [[ss fr]|]; [|constructor]. destruct D3 as ((D3 & _) & D5 & _). repeat apply app_forall; try apply alike_lit; try (apply alike_as5; [exact iso_digit|assumption]).
    destruct fr; [constructor|]. apply app_forall; [apply alike_lit|apply alike_as5; [exact iso_digit|assumption]].
  - destruct z as [| |minus hh colon mm']; [constructor|apply alike_lit|]. destruct D4 as (D4 & _ & D6 & _). cbn [sym_zone].
    repeat apply app_forall; try apply alike_lit; try (apply alike_as5; [exact iso_digit|assumption]). destruct colon; [apply alike_lit|constructor].
Qed.

(** what the groups of the match are *)
Definition iso_groups (m : mres) (yy mm dd : bytes) (k : option iso_clock) : Prop :=
  grp m 2 = yy /\ grp m 3 = mm /\ grp m 4 = dd /\
  match k with
  | None => grp m 5 = []
  | Some k => grp m 5 = ic_h k /\ grp m 6 = ic_m k /\ grp m 7 = match ic_s k with None => [] | Some (ss, _) => ss end /\
      match ic_z k with
      | NoZone | Zulu => grp m 9 = []
      | Offset minus hh _ mm => grp m 9 = bs (if minus then "-" else "+") ++ hh /\ grp m 10 = mm
      end
  end.

Lemma iso_search yy mm dd k : digits yy -> List.length yy = 4%nat -> digits mm -> (1 <= List.length mm <= 2)%nat -> digits dd -> (1 <= List.length dd <= 2)%nat ->
  match k with None => True | Some k => clock_ok k end ->
  exists m, search true iso_re (iso_text yy mm dd k) = Some m /\ m_pos m = 0%nat /\ m_str m = iso_text yy mm dd k /\ iso_groups m yy mm dd k.
Proof.
  intros Dy Ly Dm Lm Dd Ld Dk. pose proof (symbolic_search true iso_re _ (alike_iso yy mm dd k Dy Dm Dd Dk)) as E. rewrite acts_iso in E. rewrite E. clear E.
  rewrite <- acts_iso. clear Dy Dm Dd. apply len4 in Ly as (y1 & y2 & y3 & y4 & ->).
  assert (Z : match k with None => True | Some k => 
     (exists a b, ic_h k = [a; b]) /\ (exists a b, ic_m k = [a; b]) /\
     match ic_s k with None => True | Some (ss, fr) => (exists a b, ss = [a; b]) /\ (List.length fr <= 4)%nat end /\
     match ic_z k with NoZone | Zulu => True | Offset _ hh colon mm => (exists a b, hh = [a; b]) /\ ((exists a b, mm = [a; b]) \/ mm = [] /\ colon = false) end end).
  { destruct k as [[h mi s z]|]; [|exact I]. destruct Dk as ((_ & D1) & (_ & D2) & D3 & D4). cbn [ic_h ic_m ic_s ic_z] in *. 
    split; [apply len2, D1|]. split; [apply len2, D2|]. split.
    - destruct s as [[ss fr]|]; [|exact I]. destruct D3 as ((_ & D3) & _ & D5). split; [apply len2, D3|exact D5].
    - destruct z as [| |minus hh colon mm']; auto. destruct D4 as (_ & D4 & _ & D6). split; [apply len2, D4|]. destruct D6 as [D6|D6]; [left; apply len2, D6|right; exact D6]. }
  clear Dk. apply len12 in Lm as [(m1 & ->)|(m1 & m2 & ->)]; apply len12 in Ld as [(d1 & ->)|(d1 & d2 & ->)];
  (destruct k as [[h mi s z]|]; [cbn [ic_h ic_m ic_s ic_z] in Z; destruct Z as ((h1 & h2 & ->) & (i1 & i2 & ->) & Zs & Zz);
     (destruct s as [[ss fr]|]; [destruct Zs as ((s1 & s2 & ->) & Zf); destruct fr as [|f1 [|f2 [|f3 [|f4 [|f5 fr]]]]]; [ | | | | |exfalso; cbn in Zf; lia]|]);
     (destruct z as [| |[|] hh colon mm']; [ | |destruct Zz as ((o1 & o2 & ->) & [(p1 & p2 & ->)|(-> & ->)]); [destruct colon|] ..])|]); clear;
  (eexists; split; [vm_compute; reflexivity|]; split; [vm_compute; reflexivity|]; split; [vm_compute; reflexivity|]; vm_compute; repeat split; reflexivity).
Qed.

(** ** extraction *)
Lemma stoi_short w : digits w -> (1 <= List.length w <= 9)%nat -> stoi w = Ret (decimal w).
Proof.
  intros D L. rewrite stoi_digits; [|exact D|destruct w; cbn in L; [lia|discriminate]]. pose proof (decimal_bounds w D) as B.
  assert (10 ^ Z.of_nat (List.length w) <= 10 ^ 9) by (apply Z.pow_le_mono_r; lia). unfold INT_MAX. replace (2147483647 <? decimal w) with false by lia. reflexivity.
Qed.
Lemma stoi_signed (minus : bool) w : digits w -> (1 <= List.length w <= 9)%nat -> stoi (bs (if minus then "-" else "+") ++ w) = Ret (if minus then - decimal w else decimal w).
Proof.
  intros D L. pose proof (decimal_bounds w D) as B. assert (10 ^ Z.of_nat (List.length w) <= 10 ^ 9) by (apply Z.pow_le_mono_r; lia).
  pose proof (read_digits_gen w D 0 0%nat [] I) as R. rewrite app_nil_r in R. fold (decimal w) in R.
  destruct minus; cbn [bs list_ascii_of_string app]; unfold stoi; cbn [skip_spaces].
  - change (is_space "-") with false. cbn iota. rewrite R. destruct (0 + List.length w)%nat eqn:E; [lia|]. unfold INT_MIN, INT_MAX.
    replace ((- decimal w <? -2147483648) || (2147483647 <? - decimal w)) with false by lia. reflexivity.
  - change (is_space "+") with false. cbn iota. rewrite R. destruct (0 + List.length w)%nat eqn:E; [lia|]. unfold INT_MIN, INT_MAX.
    replace ((decimal w <? -2147483648) || (2147483647 <? decimal w)) with false by lia. reflexivity.
Qed.

(** the offset the code computes: as written, except that "-00" is not negative *)
Definition code_offset (z : zone) : Z :=
  match z with
  | NoZone | Zulu => 0
  | Offset minus hh _ mm => if minus && (0 <? decimal hh) then - (60 * decimal hh + decimal mm) else 60 * decimal hh + decimal mm
  end.
Definition iso_said (p : pc) (yy mm dd : bytes) (k : option iso_clock) : Prop :=
  date_certain p (Cal (decimal yy) (decimal mm) (decimal dd)) /\ untouched [WDay] p /\
  match k with
  | None => untouched [Hour; Min; Sec; TzOffset] p
  | Some k => certain Hour (decimal (ic_h k)) p /\ certain Min (decimal (ic_m k)) p /\
      match ic_s k with None => unset Sec p | Some (ss, _) => certain Sec (decimal ss) p end /\
      certain TzOffset (code_offset (ic_z k)) p
  end.
Lemma two_short w : two w -> stoi w = Ret (decimal w) /\ is_nil w = false.
Proof. intros [D L]. split; [apply stoi_short; [exact D|lia]|]. destruct w; [discriminate|reflexivity]. Qed.
Lemma iso_offset_ok z : zone_ok z -> forall g9 g10, match z with NoZone | Zulu => g9 = [] | Offset minus hh _ mm => g9 = bs (if minus then "-" else "+") ++ hh /\ g10 = mm end ->
  iso_offset g9 g10 = Ret (code_offset z).
Proof.
  intros Zo g9 g10 G. destruct z as [| |minus hh colon mm]; [subst; reflexivity|subst; reflexivity|]. destruct G as [-> ->].
  destruct Zo as (D & L & Dm & Lm). unfold iso_offset.
  assert (Nn : is_nil (bs (if minus then "-" else "+") ++ hh) = false) by (destruct minus; reflexivity). rewrite Nn.
  rewrite stoi_signed by (auto; lia). cbn [bind code_offset].
  assert (M : (if is_nil mm then Ret 0 else stoi mm) = Ret (decimal mm)).
  { destruct Lm as [Lm|[-> _]]; [|reflexivity]. destruct mm as [|c mm]; [discriminate|]. cbn [is_nil]. apply stoi_short; [exact Dm|lia]. }
  rewrite M. cbn [bind]. pose proof (decimal_bounds _ D). f_equal. destruct minus; cbn [andb].
  - destruct (0 <? decimal hh) eqn:E.
    + replace (- decimal hh * 60 <? 0) with true by lia. lia.
    + replace (- decimal hh * 60 <? 0) with false by lia. lia.
  - replace (decimal hh * 60 <? 0) with false by lia. lia.
Qed.

Lemma iso_extracted e g tx m ref idx yy mm dd k :
  digits yy -> List.length yy = 4%nat -> digits mm -> (1 <= List.length mm <= 2)%nat -> digits dd -> (1 <= List.length dd <= 2)%nat ->
  match k with None => True | Some k => clock_ok k end -> iso_groups m yy mm dd k ->
  1 <= decimal mm <= 12 -> 1 <= decimal dd <= 31 ->
  exists res, iso_extract e g tx m ref idx = Ret res /\ r_text res = m_str m /\ r_index res = u32 idx /\ has_end res = false /\ iso_said (r_start res) yy mm dd k /\
    tag_is TISO res = true.
Proof.
  intros Dy Ly Dm Lm Dd Ld Dk (G2 & G3 & G4 & G) Hm Hd. unfold iso_extract. rewrite G2, G3, G4, !stoi_short by (auto; lia). cbn [bind].
  replace ((12 <? decimal mm) || (decimal mm <? 1) || (31 <? decimal dd) || (decimal dd <? 1)) with false by lia.
  destruct k as [[h mi s z]|]; cbn [ic_h ic_m ic_s ic_z] in *.
  - destruct G as (G5 & G6 & G7 & G9). destruct Dk as (D1 & D2 & D3 & D4). cbn [ic_h ic_m ic_s ic_z] in *.
    destruct (two_short _ D1) as [S1 N1], (two_short _ D2) as [S2 N2]. rewrite G5, G6, G7, N1, S1, S2. cbn [bind].
    pose proof (iso_offset_ok z D4 (grp m 9) (grp m 10) G9) as O. rewrite O.
    destruct s as [[ss fr]|].
    + destruct D3 as (D3 & _). destruct (two_short _ D3) as [S3 N3]. rewrite N3, S3. cbn [bind]. eexists. split; [reflexivity|].
      do 3 (split; [reflexivity|]). split; [|reflexivity]. unfold iso_said. cbn [ic_h ic_m ic_s ic_z]. repeat split; try comps.
    + cbn [is_nil bind]. eexists. split; [reflexivity|]. do 3 (split; [reflexivity|]). split; [|reflexivity]. unfold iso_said. cbn [ic_h ic_m ic_s ic_z]. repeat split; try comps.
  - rewrite G. cbn [is_nil bind]. eexists. split; [reflexivity|]. do 3 (split; [reflexivity|]). split; [|reflexivity]. repeat split; try comps.
Qed.

(** ** every match of the pattern *)
Lemma digits_lang ic r n w : only ic is_digit r = true -> max_len r = Some n -> lang ic r w -> digits w /\ (List.length w <= n)%nat.
Proof. intros O M L. split; [exact (only_ok _ _ _ _ O L)|exact (max_len_ok _ _ _ _ L M)]. Qed.
Lemma iso_match_groups t m : search true iso_re t = Some m ->
  (forall n, In n [3; 4; 5; 6; 7; 10]%nat -> digits (grp m n) /\ (List.length (grp m n) <= 2)%nat) /\ digits (grp m 2) /\ (List.length (grp m 2) <= 4)%nat.
Proof.
  intros S. assert (C : Forall (cap_ok true (groups iso_re)) (m_caps m)).
  { shape S. destruct (mt_word _ _ _ _ M) as (w & cs & _ & _ & _ & Ec & F). rewrite C, Ec. cbn [Regex.s_caps]. rewrite app_nil_r. exact F. }
  split.
  - intros n In'. destruct (grp_ok _ _ _ n C) as [->|(a & Ia & La)]; [intros ->; cbn in In'; decompose [or] In'; congruence|split; [constructor|cbn; lia]|].
    unfold iso_re, iso_time, iso_frac, iso_zone, WB in Ia. 
    apply (digits_lang true a 2); [| |exact La].
    all: cbn [In] in In'; vm_compute in Ia; decompose [or] In'; try contradiction; subst n; decompose [or] Ia; try contradiction;
      match goal with H : (_, _) = (_, _) |- _ => injection H; intros; subst; first [discriminate|vm_compute; reflexivity] end.
  - destruct (grp_ok _ _ _ 2%nat C) as [->|(a & Ia & La)]; [discriminate|split; [constructor|cbn; lia]|].
    apply (digits_lang true a 4); [| |exact La].
    all: vm_compute in Ia; decompose [or] Ia; try contradiction;
      match goal with H : (_, _) = (_, _) |- _ => injection H; intros; subst; first [discriminate|vm_compute; reflexivity] end.
Qed.
