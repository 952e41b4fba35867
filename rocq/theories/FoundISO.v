(** * FoundISO: an ISO date is taken whole by the pattern wherever it stands *)
From Verif Require Import Base Regex RegexParse Calendar Components Utils Execute Spec View ParserSpec CalendarFacts RegexFacts ResultFacts Template
  ExecuteFacts ParserRe MatchFacts HistoryFacts ParserFacts CasualFacts NumberFacts Symbolic Open ISOFacts ISOShape FoundFacts P_ISO.
From Coq Require Import ZifyBool ZifyNat ZifyN.
Open Scope string_scope.
Open Scope list_scope.
Open Scope Z_scope.

Definition singles (l : list pchar) : list sitem := map (fun p => SC (fst p) (snd p)) l.
Lemma singles_text l : items_text (singles l) = acts l.
Proof. induction l as [|p l IH]; [reflexivity|]. unfold singles in *. cbn [map]. rewrite items_text_cons, IH. reflexivity. Qed.
Lemma singles_ok r l : Forall (alike true r) l -> Forall (item_ok' true r) (singles l).
Proof. intros F. unfold singles. apply Forall_map. revert F. apply Forall_impl. intros [c d] H. exact H. Qed.
(** what may follow: the end, or a character that is no word character and no sign that could continue the time of day *)
Definition iso_sign (c : ascii) : bool := existsb (Ascii.eqb c) (bs ":.+-").
Definition iso_end : tail := Tail (fun c => if is_word c then false else negb (iso_sign c)) true.
Lemma iso_takes_date yy mm dd : date_loose yy mm dd ->
  exists c, takes_all apart iso_re (singles (sym_iso yy mm dd None)) c /\ forall m, m_caps m = caps_text c -> iso_groups m yy mm dd None.
Proof.
  intros (_ & Ly & (_ & Lm) & (_ & Ld)). apply len4 in Ly as (y1 & y2 & y3 & y4 & ->).
  apply len12 in Lm as [(m1 & ->)|(m1 & m2 & ->)]; apply len12 in Ld as [(d1 & ->)|(d1 & d2 & ->)];
  (eexists; split; [intros p [-> | -> ]; (eexists; split; [vm_compute; reflexivity|split; vm_compute; reflexivity])|];
   intros m Em; unfold iso_groups, grp; rewrite Em; vm_compute; repeat split; reflexivity).
Qed.
Lemma iso_takes_time yy mm dd k : digits yy -> List.length yy = 4%nat -> two mm -> two dd -> clock_ok k ->
  exists c, takes_all iso_end iso_re (singles (sym_iso yy mm dd (Some k))) c /\ forall m, m_caps m = caps_text c -> iso_groups m yy mm dd (Some k).
Proof.
  intros _ Ly (_ & Lm) (_ & Ld) Dk. apply len4 in Ly as (y1 & y2 & y3 & y4 & ->). apply len2 in Lm as (m1 & m2 & ->). apply len2 in Ld as (d1 & d2 & ->).
  assert (Z : (exists a b, ic_h k = [a; b]) /\ (exists a b, ic_m k = [a; b]) /\
     match ic_s k with None => True | Some (ss, fr) => (exists a b, ss = [a; b]) /\ (List.length fr <= 4)%nat end /\
     match ic_z k with NoZone | Zulu => True | Offset _ hh colon mm => (exists a b, hh = [a; b]) /\ ((exists a b, mm = [a; b]) \/ mm = [] /\ colon = false) end).
  { destruct k as [h mi s z]. destruct Dk as ((_ & D1) & (_ & D2) & D3 & D4). cbn [ic_h ic_m ic_s ic_z] in *. 
    split; [apply len2, D1|]. split; [apply len2, D2|]. split.
    - destruct s as [[ss fr]|]; [|exact I]. destruct D3 as ((_ & D3) & _ & D5). split; [apply len2, D3|exact D5].
    - destruct z as [| |minus hh colon mm']; auto. destruct D4 as (_ & D4 & _ & D6). split; [apply len2, D4|]. destruct D6 as [D6|D6]; [left; apply len2, D6|right; exact D6]. }
  clear Dk. destruct k as [h mi s z]. cbn [ic_h ic_m ic_s ic_z] in Z. destruct Z as ((h1 & h2 & ->) & (i1 & i2 & ->) & Zs & Zz).
  (destruct s as [[ss fr]|]; [destruct Zs as ((s1 & s2 & ->) & Zf); destruct fr as [|f1 [|f2 [|f3 [|f4 [|f5 fr]]]]]; [ | | | | |exfalso; cbn in Zf; lia]|]);
  (destruct z as [| |[|] hh colon mm']; [ | |destruct Zz as ((o1 & o2 & ->) & [(p1 & p2 & ->)|(-> & ->)]); [destruct colon|] ..]); clear;
  (eexists; split; [intros p [-> | -> ]; (eexists; split; [vm_compute; reflexivity|split; vm_compute; reflexivity])|];
   intros m Em; unfold iso_groups, grp; rewrite Em; vm_compute; repeat split; reflexivity).
Qed.
(** no earlier match reaches into a date that does not follow one of the signs *)
Definition no_sign (c : ascii) : bool := if is_word c then false else negb (iso_sign c).
Lemma iso_apart : no_straddle (no_sign :: [is_digit]) iso_re = true.
Proof. vm_compute. reflexivity. Qed.
