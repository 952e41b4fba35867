(** * A phrase is found exactly where it stands, whatever is written around it (C85 - C90) *)
From Verif Require Import Base Regex RegexParse Calendar Components Utils Execute Spec View ParserSpec CalendarCycle CalendarFacts RegexFacts ResultFacts
  WeekSpec ExecuteFacts ParserRe MatchFacts LocateFacts HistoryFacts ParserFacts CasualFacts Symbolic Open Template DeadlineFacts ISOFacts ISOShape HolidayFacts AgoFacts WeekFacts FoundFacts FoundISO Main
  P_CasualDate P_CasualTime P_Deadline P_ISO P_Holiday P_Week Prop_Execute Prop_Casual Prop_Deadline Prop_ISO Prop_Holiday Prop_Week Prop_Format Prop_Ago Prop_Main NumberFacts MainFacts.
From Coq Require Import ZifyBool ZifyNat ZifyN.
Open Scope string_scope.
Open Scope list_scope.
Open Scope Z_scope.

(** [res] is found at the place after [pre] and its text is [w] *)
Definition stands (res : result) (pre w : bytes) : Prop := getIndex res = Z.of_nat (List.length pre) /\ r_text res = w.

(** ** C85: casual dates *)
Definition casual_plain : list bytes := map bs ["now"; "today"; "tonight"; "yesterday"; "tomorrow"; "tmr"].
Definition casual_phrase (w : bytes) : Prop := In w casual_plain \/ exists sp, blanks sp /\ w = bs "last" ++ sp ++ bs "night".
Lemma casual_phrase_lang w : casual_phrase w -> lang true cd_words w /\ word_opt (hd_error w) = true /\ (forall p, word_opt (lastc w p) = true).
Proof.
  intros [I|(sp & B & ->)].
  - apply casual_word_lang. cbn in I |- *. tauto.
  - split; [|split; [reflexivity|intros p; rewrite !lastc_app; reflexivity]]. apply blank_run in B. cbn [bs list_ascii_of_string app]. in_lang.
Qed.
Definition is_ (a c : ascii) : bool := Ascii.eqb a c.
Lemma is_refl c : is_ c c = true. Proof. apply Ascii.eqb_refl. Qed.
Definition outside (c : ascii) : bool := negb (is_word c).
Lemma starts_casual pre w post k : casual_phrase w -> separate pre post -> starts_match true casual_date_re (lastc (skipn k pre) None) (w ++ post).
Proof.
  intros Cw [Sa Sb]. destruct (casual_phrase_lang w Cw) as (L & W1 & W2).
  eexists. exists (mkst (lastc (skipn k pre) None) (w ++ post) [(1%nat, [])]). split.
  - apply mt_WB_intro. unfold wb_at. rewrite (lastc_skipn_word _ _ Sa), xorb_F. destruct w; [discriminate|exact W1].
  - eexists. split; [apply mt_grp; [reflexivity|exact L]|]. apply mt_WB_intro. unfold wb_at. rewrite W2, (separate_after _ Sb). reflexivity.
Qed.
Definition among (l : bytes) (c : ascii) : bool := existsb (is_ c) l.
Definition casual_firsts : list (ascii -> bool) := [among (bs "tyln"); among (bs "aemo")].
Lemma casual_apart : no_straddle (outside :: casual_firsts) casual_date_re = true.
Proof. vm_compute. reflexivity. Qed.
Lemma casual_heads w : casual_phrase w -> exists w1 w2, Forall2 (fun P c => P c = true) casual_firsts w1 /\ w = w1 ++ w2.
Proof.
  intros [I|(sp & B & ->)].
  - cbn in I. destruct I as [<-|[<-|[<-|[<-|[<-|[<-|[]]]]]]].
    + exists (bs "no"), (bs "w"). split; [repeat constructor|reflexivity].
    + exists (bs "to"), (bs "day"). split; [repeat constructor|reflexivity].
    + exists (bs "to"), (bs "night"). split; [repeat constructor|reflexivity].
    + exists (bs "ye"), (bs "sterday"). split; [repeat constructor|reflexivity].
    + exists (bs "to"), (bs "morrow"). split; [repeat constructor|reflexivity].
    + exists (bs "tm"), (bs "r"). split; [repeat constructor|reflexivity].
  - exists (bs "la"), (bs "st" ++ sp ++ bs "night"). split; [repeat constructor|reflexivity].
Qed.
(** the text of the result is the phrase, up to trailing blanks *)
Lemma casual_same t m w post post' res : casual_phrase w -> (forall c b, post = c :: b -> is_word c = false) -> casual_date_means t m res -> w ++ post = m ++ post' ->
  exists sp, blanks sp /\ m = w ++ sp.
Proof.
  intros Cw Sb (_ & M) E.
  destruct M as [(-> & _)|[(-> & _)|[(-> & _)|[(s & c & -> & B & _)|[(s & c & -> & B & _)|(s & c & Em & B & _)]]]]].
  all: try (destruct Em as [-> | -> ]).
  all: destruct Cw as [I|(sp & Bs & ->)]; [cbn in I; destruct I as [<-|[<-|[<-|[<-|[<-|[<-|[]]]]]]]|];
    cbn [bs list_ascii_of_string app] in E; try discriminate.
  all: try solve [exists []; split; [constructor|reflexivity]].
  all: try solve [exists s; split; [exact B|reflexivity]].
  - injection E as E. rewrite <- !app_assoc in E. exists []. split; [constructor|]. rewrite app_nil_r.
    apply blank_tok in E as [-> _]; [reflexivity|assumption|assumption|reflexivity|reflexivity].
Qed.

Theorem C85_casual_dates_stand : forall e g text t us pre w post, sane e -> real_instant t us -> neighbours (mdate t) -> Z.of_nat (List.length text) < 2 ^ 32 ->
  casual_phrase w -> to_lower text = pre ++ w ++ post -> separate pre post ->
  exists rs res sp, x_res (execute e casual_date g text (ptime_of t us)) = Ret rs /\ In res rs /\ stands res pre (w ++ sp) /\ blanks sp.
Proof.
  intros e g text t us pre w post He H N Hn Cw E Sp. destruct (C18_casual_dates_total e g text t us H N He) as [rs X]. exists rs.
  destruct (casual_heads w Cw) as (w1 & w2 & F & Ew).
  destruct (found_at e casual_date casual_date_re (ptime_of t us) text g rs pre (w ++ post) He in_casual_date locates_casual_date casual_date_compile Hn E)
    as (k & m & g0 & g1 & res & q & A1 & A2 & A3 & A4 & A5 & A6 & A7 & A8 & A9 & A10).
  - intros k _. apply starts_casual; assumption.
  - apply (none_before outside casual_firsts casual_date_re pre _ w1 (w2 ++ post) casual_apart); [cbn; lia| |exact F|rewrite Ew, <- app_assoc; reflexivity|rewrite <- E; apply low_to_lower].
    intros a c Ea. unfold outside. destruct Sp as [Sa _]. rewrite (Sa a c Ea). reflexivity.
  - exact X.
  - cbn [p_extract casual_date] in A6. unfold pure_extract in A6. injection A6 as _ A6.
    destruct (casual_date_extracted _ _ _ _ _ _ _ _ H A3 A2 A6) as (M & _).
    destruct (casual_same t (m_str m) w post q res Cw (proj2 Sp) M A4) as (sp & B & Em). exists (res_copy res), sp.
    split; [exact X|]. split; [apply A9; eapply casual_date_possible; eauto|]. split; [|exact B]. split; [exact A7|]. change (r_text (res_copy res)) with (r_text res). congruence.
Qed.
Print Assumptions C85_casual_dates_stand.

(** ** C86: deadlines *)
Lemma deadline_starts o kw s1 n s2 u q post : word_opt o = false -> (forall c b, post = c :: b -> is_word c = false) ->
  (kw = bs "in" \/ kw = bs "within") -> blanks s1 -> s1 <> [] -> spells n q -> blanks s2 -> s2 <> [] -> In u (map bs all_units) ->
  starts_match true deadline_re o ((kw ++ s1 ++ n ++ s2 ++ u) ++ post).
Proof.
  intros Ho Sb K B1 N1 Sq B2 N2 Iu. rewrite <- !app_assoc.
  exists (mkst (lastc u (lastc s2 (lastc n (lastc s1 (lastc kw o))))) post [(5%nat, []); (4%nat, u); (3%nat, n); (2%nat, kw); (1%nat, [])]).
  exists (mkst o (kw ++ s1 ++ n ++ s2 ++ u ++ post) [(1%nat, [])]). split.
  { apply mt_WB_intro. unfold wb_at. rewrite Ho. destruct K as [-> | ->]; reflexivity. }
  exists (mkst (lastc kw o) (s1 ++ n ++ s2 ++ u ++ post) [(2%nat, kw); (1%nat, [])]). split.
  { apply mt_grp; [reflexivity|apply kw_lang; exact K]. }
  exists (mkst (lastc s1 (lastc kw o)) (n ++ s2 ++ u ++ post) [(2%nat, kw); (1%nat, [])]). split.
  { apply plain_mt; [reflexivity|apply blanks_SPp; assumption]. }
  exists (mkst (lastc n (lastc s1 (lastc kw o))) (s2 ++ u ++ post) [(3%nat, n); (2%nat, kw); (1%nat, [])]). split.
  { apply mt_grp; [reflexivity|eapply spells_lang; exact Sq]. }
  exists (mkst (lastc s2 (lastc n (lastc s1 (lastc kw o)))) (u ++ post) [(3%nat, n); (2%nat, kw); (1%nat, [])]). split.
  { apply plain_mt; [reflexivity|apply blanks_SPp; assumption]. }
  exists (mkst (lastc u (lastc s2 (lastc n (lastc s1 (lastc kw o))))) post [(4%nat, u); (3%nat, n); (2%nat, kw); (1%nat, [])]). split.
  { apply mt_grp; [reflexivity|apply unit_lang; exact Iu]. }
  apply mt_WB_intro. unfold wb_at. destruct (unit_solid u Iu) as (_ & Nu & Wu). destruct u as [|x u'] using rev_ind; [congruence|].
  rewrite lastc_app. cbn. apply Forall_app in Wu as [_ Wu]. inversion Wu as [|? ? Wx _]; subst. rewrite Wx, (separate_after _ Sb). reflexivity.
Qed.
Lemma unit_end u p : In u (map bs all_units) -> word_opt (lastc u p) = true.
Proof.
  intros Iu. destruct (unit_solid u Iu) as (_ & Nu & Wu). destruct u as [|x u'] using rev_ind; [congruence|].
  rewrite lastc_app. cbn. apply Forall_app in Wu as [_ Wu]. inversion Wu as [|? ? Wx _]; subst. exact Wx.
Qed.
Lemma wb_word o post : word_opt o = true -> word_opt (hd_error post) = false -> wb_at o post.
Proof. intros A B. unfold wb_at. rewrite A, B. reflexivity. Qed.
Lemma wb_end o post : word_opt o = true -> wb_at o post -> word_opt (hd_error post) = false.
Proof. unfold wb_at. intros ->. destruct (word_opt (hd_error post)); [discriminate|reflexivity]. Qed.
(** two phrases at the same place are the same phrase *)
Lemma deadline_same kw s1 n s2 u q post kw' s1' n' s2' u' q' post' :
  (kw = bs "in" \/ kw = bs "within") -> blanks s1 -> s1 <> [] -> spells n q -> blanks s2 -> s2 <> [] -> In u (map bs all_units) ->
  (kw' = bs "in" \/ kw' = bs "within") -> blanks s1' -> s1' <> [] -> spells n' q' -> blanks s2' -> s2' <> [] -> In u' (map bs all_units) ->
  word_opt (hd_error post) = false -> word_opt (hd_error post') = false ->
  (kw ++ s1 ++ n ++ s2 ++ u) ++ post = (kw' ++ s1' ++ n' ++ s2' ++ u') ++ post' -> n' = n /\ u' = u /\ kw' ++ s1' ++ n' ++ s2' ++ u' = kw ++ s1 ++ n ++ s2 ++ u.
Proof.
  intros K B1 N1 Sq B2 N2 Iu K' B1' N1' Sq' B2' N2' Iu' W W' E.
  apply app_eq_app in E as (x & [(Ea & Eb)|(Ea & Eb)]).
  - symmetry in Ea. rewrite <- !app_assoc in Ea.
    destruct (phrase_unique kw s1 n s2 u q kw' s1' n' s2' u' q' x K B1 N1 Sq B2 N2 Iu K' B1' N1' Sq' B2' N2' Iu') as (-> & -> & -> & -> & -> & ->); [|exact Ea|auto].
    intros p. apply wb_word; [apply unit_end; exact Iu'|]. destruct x; [reflexivity|]. rewrite Eb in W'. exact W'.
  - symmetry in Ea. rewrite <- !app_assoc in Ea.
    destruct (phrase_unique kw' s1' n' s2' u' q' kw s1 n s2 u q x K' B1' N1' Sq' B2' N2' Iu' K B1 N1 Sq B2 N2 Iu) as (-> & -> & -> & -> & -> & ->); [|exact Ea|auto].
    intros p. apply wb_word; [apply unit_end; exact Iu|]. destruct x; [reflexivity|]. rewrite Eb in W. exact W.
Qed.
Definition deadline_firsts : list (ascii -> bool) := [among (bs "iw"); among (bs "ni")].
Lemma deadline_apart : no_straddle (outside :: deadline_firsts) deadline_re = true.
Proof. vm_compute. reflexivity. Qed.
Lemma deadline_heads kw rest : kw = bs "in" \/ kw = bs "within" -> exists w1 w2, Forall2 (fun P c => P c = true) deadline_firsts w1 /\ kw ++ rest = w1 ++ w2.
Proof.
  intros [-> | -> ].
  - exists (bs "in"), rest. split; [repeat constructor|reflexivity].
  - exists (bs "wi"), (bs "thin" ++ rest). split; [repeat constructor|reflexivity].
Qed.

Theorem C86_deadlines_stand : forall e text t us pre w post n u q rs, sane e -> real_instant t us -> Z.of_nat (List.length text) < 2 ^ 32 ->
  deadline_phrase w n u -> spells n q -> In u (map bs all_units) -> (forall k, q = Whole k -> k <= INT_MAX) ->
  to_lower text = pre ++ w ++ post -> separate pre post ->
  x_res (execute e deadline gwords_init text (ptime_of t us)) = Ret rs ->
  exists res, In res rs /\ stands res pre w /\ has_end res = false /\ untouched [WDay; TzOffset] (r_start res) /\
    (forall v k, u = bs v -> In (v, k) full_units -> deadline_means t q k (r_start res)).
Proof.
  intros e text t us pre w post n u q rs He H Hn (kw & s1 & s2 & Ew & K & B1 & N1 & B2 & N2) Sq Iu Hm E Sp X. subst w.
  destruct (deadline_heads kw ((s1 ++ n ++ s2 ++ u) ++ post) K) as (w1 & w2 & F & Ew).
  destruct (found_at e deadline deadline_re (ptime_of t us) text gwords_init rs pre ((kw ++ s1 ++ n ++ s2 ++ u) ++ post) He in_deadline locates_deadline deadline_compile Hn E)
    as (k & m & g0 & g1 & res & r & A1 & A2 & A3 & A4 & A5 & A6 & A7 & A8 & A9 & A10).
  - intros k _. apply (deadline_starts _ kw s1 n s2 u q post); auto; [apply lastc_skipn_word; apply Sp|apply Sp].
  - apply (none_before outside deadline_firsts deadline_re pre _ w1 w2 deadline_apart); [cbn; lia| |exact F|rewrite <- app_assoc; exact Ew|rewrite <- E; apply low_to_lower].
    intros a c Ea. unfold outside. destruct Sp as [Sa _]. rewrite (Sa a c Ea). reflexivity.
  - exact X.
  - apply leads_pure in A10. subst g0. cbn [p_extract deadline] in A6. unfold pure_extract in A6. injection A6 as _ A6.
    destruct (deadline_wb _ _ A2) as (pre' & post' & kw' & s1' & n' & s2' & u' & Et & Hp & Em & Lk & B1' & N1' & Ln & B2' & N2' & Lu & G3 & G4 & W).
    assert (r = post') as ->.
    { rewrite E, skipn_app, A4 in Et. replace (k - List.length pre)%nat with 0%nat in Et by lia. cbn [skipn] in Et.
      apply same_place in Et as [_ Et]; [|rewrite skipn_length; lia]. apply app_inv_head in Et. exact Et. }
    assert (Lo' : low (kw' ++ s1' ++ n' ++ s2' ++ u')) by (rewrite <- Em; rewrite Et in A3; exact (low_part _ _ _ A3)).
    apply low_app in Lo' as [Lok Lo']. apply low_app in Lo' as [_ Lo']. apply low_app in Lo' as [Lon Lo']. apply low_app in Lo' as [_ Lou].
    destruct (deadline_amount_spec n' Lon Ln) as (q' & Sq' & _).
    pose proof (deadline_unit _ Lou Lu) as Iu'.
    rewrite Em in A4. destruct (deadline_same kw s1 n s2 u q post kw' s1' n' s2' u' q' post' K B1 N1 Sq B2 N2 Iu (kw_words _ Lok Lk) B1' N1' Sq' B2' N2' Iu') as (En & Eu & Ew').
    { apply separate_after. apply Sp. }
    { apply (wb_end (lastc u' None)); [apply unit_end; exact Iu'|apply W]. }
    { exact A4. }
    rewrite En in G3. rewrite Eu in G4. rewrite Ew' in Em.
    pose proof (spells_amount n q Sq) as A.
    assert (Q : deadline_amount gwords_init n = Some (num_of q) /\ (forall k, q = Whole k -> 0 <= k)).
    { destruct q as [j|]; cbn [amount_ok num_of] in *; [|split; [exact A|discriminate]]. destruct A as (Hk & A). split; [|intros ? E'; injection E' as <-; exact Hk].
      destruct A as [A|(_ & _ & A)]; [exact A|]. specialize (Hm j eq_refl). lia. }
    destruct Q as [Q Hq]. unfold deadline_extract in A6. rewrite G3, Q, G4, pt_date_of in A6 by exact H. cbn [bind grp] in A6.
    pose proof (deadline_rest_said t us q n u _ _ _ H Iu Hq A6) as Sd. pose proof (said_possible _ _ _ _ _ _ H Iu Sd) as Po.
    pose proof (A9 Po) as I. exists (res_copy res). split; [exact I|]. split; [split; [exact A7|change (r_text (res_copy res)) with (r_text res); congruence]|].
    destruct (C23_every_deadline e text t us rs (res_copy res) He H X I) as (_ & _ & _ & _ & _ & _ & Ee & _).
    split; [exact Ee|]. destruct Sd as (U & F' & _). split; [exact U|exact F'].
Qed.
Print Assumptions C86_deadlines_stand.

(** ** C87: ISO dates *)
Theorem C87_iso_stand : forall e g text ref pre yy mm dd k post rs, sane e -> Z.of_nat (List.length text) < 2 ^ 32 ->
  date_loose yy mm dd -> 1 <= decimal mm <= 12 -> 1 <= decimal dd <= 31 ->
  match k with None => True | Some c => two mm /\ two dd /\ clock_ok c /\ (forall x b, post = x :: b -> ~ In x (bs ":.+-")) end ->
  to_lower text = pre ++ iso_text yy mm dd k ++ post -> separate pre post -> (forall a x, pre = a ++ [x] -> ~ In x (bs ":.+-")) ->
  x_res (execute e iso g text ref) = Ret rs ->
  exists res, In res rs /\ stands res pre (iso_text yy mm dd k) /\ has_end res = false /\
    let p := r_start res in date_certain p (Cal (decimal yy) (decimal mm) (decimal dd)) /\ unset WDay p /\
    match k with
    | None => untouched [Hour; Min; Sec; TzOffset] p
    | Some c => certain Hour (decimal (ic_h c)) p /\ certain Min (decimal (ic_m c)) p /\
        match ic_s c with None => unset Sec p | Some (ss, _) => certain Sec (decimal ss) p end /\
        (match ic_z c with Offset true hh _ _ => decimal hh <> 0 | _ => True end -> certain TzOffset (zone_minutes (ic_z c)) p)
    end.
Proof.
  intros e g text ref pre yy mm dd k post rs He Hn Dl Bm Bd Hk E Sp Sg X. pose proof Dl as (Dy & Ly & (Dm & Lm) & (Dd & Ld)).
  assert (Sgn : forall x, ~ In x (bs ":.+-") -> iso_sign x = false).
  { intros x N. unfold iso_sign. destruct (existsb _ _) eqn:Q; [|reflexivity]. apply existsb_exists in Q as (y & Iy & Ey). apply Ascii.eqb_eq in Ey. subst y. contradiction. }
  assert (Ck : match k with None => True | Some k => clock_ok k end) by (destruct k; [apply Hk|exact I]).
  assert (Tk : exists tl c, tail_ok tl post /\ takes_all tl iso_re (singles (sym_iso yy mm dd k)) c /\ forall m, m_caps m = caps_text c -> iso_groups m yy mm dd k).
  { destruct k as [c|].
    - destruct Hk as (Tm & Td & Cc & Np). destruct (iso_takes_time yy mm dd c Dy Ly Tm Td Cc) as (cc & T & G). exists iso_end, cc. split; [|auto].
      destruct post as [|x b]; [reflexivity|]. cbn [tail_ok t_next iso_end]. destruct Sp as [_ Sb]. rewrite (Sb x b eq_refl), (Sgn x (Np x b eq_refl)). reflexivity.
    - destruct (iso_takes_date yy mm dd Dl) as (cc & T & G). exists apart, cc. split; [eapply separate_tail; exact Sp|auto]. }
  destruct Tk as (tl & c & HT & Tk & Gr).
  assert (Et : items_text (singles (sym_iso yy mm dd k)) = iso_text yy mm dd k) by (rewrite singles_text; apply acts_iso).
  assert (Y : exists y1 y', yy = y1 :: y' /\ is_digit y1 = true) by (destruct yy as [|y1 y']; [discriminate Ly|inversion Dy; subst; eauto]). destruct Y as (y1 & y' & Ey & Dy1).
  destruct (phrase_at e iso iso_re ref text g rs pre post (singles (sym_iso yy mm dd k)) c tl no_sign [is_digit] [y1] (y' ++ bs "-" ++ mm ++ bs "-" ++ dd ++ (match k with None => [] | Some k => clock_text k end) ++ post)
    He in_iso locates_iso iso_compile Hn) as (tx & m & g0 & g1 & res & A1 & A2 & A3 & A4 & A5 & A6 & A7 & A8 & _).
  - rewrite Et. exact E.
  - exact Sp.
  - exact HT.
  - exact Tk.
  - apply singles_ok. apply alike_iso; assumption.
  - exact iso_apart.
  - cbn. lia.
  - intros a x Ea. unfold no_sign. destruct Sp as [Sa _]. rewrite (Sa a x Ea), (Sgn x (Sg a x Ea)). reflexivity.
  - repeat constructor. exact Dy1.
  - rewrite Et, Ey. unfold iso_text, ymd_text. rewrite <- !app_assoc. reflexivity.
  - exact X.
  - cbn [p_extract iso] in A5. unfold pure_extract in A5. injection A5 as _ A5.
    destruct (iso_extracted e g0 tx m ref (Z.of_nat (List.length pre)) yy mm dd k Dy Ly Dm Lm Dd Ld Ck (Gr m A4) Bm Bd) as (r1 & X1 & T & _ & En & (D & U & K) & _).
    rewrite X1 in A5. apply RelativeFacts.ret_inj in A5. subst r1.
    exists (res_copy res). split; [apply A8; apply (real_month_possible _ (decimal mm)); [apply D|lia]|].
    split; [split; [exact A6|change (r_text (res_copy res)) with (r_text res); congruence]|]. split; [exact En|].
    change (r_start (res_copy res)) with (r_start res). split; [exact D|]. split; [inversion U; assumption|].
    destruct k as [[h mi s z]|]; [|exact K]. cbn [ic_h ic_m ic_s ic_z] in *. destruct K as (K1 & K2 & K3 & K4). do 3 (split; [assumption|]). intros Nz.
    destruct z as [| |[|] hh col mi']; cbn [code_offset zone_minutes andb] in *; try exact K4.
    + destruct Ck as (_ & _ & _ & (Dh & _)). pose proof (decimal_bounds _ Dh). replace (0 <? decimal hh) with true in K4 by lia. replace (-1 * (60 * decimal hh + decimal mi')) with (- (60 * decimal hh + decimal mi')) by lia. exact K4.
    + replace (1 * (60 * decimal hh + decimal mi')) with (60 * decimal hh + decimal mi') by lia. exact K4.
Qed.
Print Assumptions C87_iso_stand.

(** ** C88: holidays *)
Lemma ho_blank : class_alike true holiday_re is_space " " = true. Proof. vm_compute. reflexivity. Qed.
Definition ho_items (x : string) (sp : bytes) : list sitem := cased (bs x) (bs x) ++ run sp " " ++ cased (bs "day") (bs "day").
Lemma ho_takes x sp : In x (map fst plain_names) -> sp <> [] -> exists c, takes_all apart holiday_re (ho_items x sp) c.
Proof.
  intros I N. destruct sp as [|b sp]; [congruence|]. clear N. cbn in I.
  repeat (destruct I as [<-|I]; [eexists; intros p [-> | -> ]; (eexists; split; [vm_compute; reflexivity|split; vm_compute; reflexivity])|]). contradiction.
Qed.
Definition holiday_firsts : list (ascii -> bool) := [among (bs "ipncmtlv"); among (bs "nreolah")].
Lemma holiday_apart : no_straddle (outside :: holiday_firsts) holiday_re = true.
Proof. vm_compute. reflexivity. Qed.
Lemma holiday_heads x : In x (map fst plain_names) -> exists w1 w2, Forall2 (fun P c => P c = true) holiday_firsts w1 /\ bs x = w1 ++ w2.
Proof. intros I. cbn in I. repeat (destruct I as [<-|I]; [eexists [_; _], _; split; [|reflexivity]; repeat constructor|]). contradiction. Qed.

Theorem C88_holidays_stand : forall e g text t us pre x r sp post rs, sane e -> real_instant t us -> Z.of_nat (List.length text) < 2 ^ 32 ->
  In (x, r) plain_names -> blanks sp -> sp <> [] ->
  to_lower text = pre ++ (bs x ++ sp ++ bs "day") ++ post -> separate pre post ->
  x_res (execute e holiday g text (ptime_of t us)) = Ret rs ->
  exists res, In res rs /\ stands res pre (bs x ++ sp ++ bs "day") /\ has_end res = false /\ holiday_on r (cy (mdate t)) res.
Proof.
  intros e g text t us pre x r sp post rs He H Hn I B N E Sp X. pose proof (in_map fst _ _ I) as Ix. cbn [fst] in Ix.
  destruct (ho_takes x sp Ix N) as (c & Tk). destruct (holiday_heads x Ix) as (w1 & w2 & F & Ex).
  assert (Et : items_text (ho_items x sp) = bs x ++ sp ++ bs "day") by (unfold ho_items; rewrite !items_text_app, run_text, !self_text; reflexivity).
  destruct (phrase_at e holiday holiday_re (ptime_of t us) text g rs pre post (ho_items x sp) c apart outside holiday_firsts w1 (w2 ++ sp ++ bs "day" ++ post)
    He in_holiday locates_holiday holiday_compile Hn) as (tx & m & g0 & g1 & res & A1 & A2 & A3 & A4 & A5 & A6 & A7 & A8 & _).
  - rewrite Et. exact E.
  - exact Sp.
  - eapply separate_tail; exact Sp.
  - exact Tk.
  - unfold ho_items. apply Forall_app; split; [apply self_ok|]. apply Forall_app; split; [apply (run_items_ok _ _ _ _ ho_blank B)|apply self_ok].
  - exact holiday_apart.
  - cbn. lia.
  - intros a y Ea. unfold outside. destruct Sp as [Sa _]. rewrite (Sa a y Ea). reflexivity.
  - exact F.
  - rewrite Et, Ex, <- !app_assoc. reflexivity.
  - exact X.
  - cbn [p_extract holiday] in A5. unfold pure_extract in A5. injection A5 as _ A5.
    destruct (holiday_by_pick e g0 tx m t us (Z.of_nat (List.length pre)) H) as (r1 & X1 & (T & _ & En) & Pk).
    rewrite X1 in A5. apply RelativeFacts.ret_inj in A5. subst r1. rewrite A3, Et in Pk.
    rewrite (pick_name (bs x) r sp (bs "day") (plain_is_name x r I) B N (or_intror eq_refl)) in Pk.
    exists (res_copy res). split; [apply A8; destruct Pk as (c' & Rc & _ & D & _); eapply date_certain_possible; eauto|].
    split; [split; [exact A6|change (r_text (res_copy res)) with (r_text res); congruence]|]. split; [exact En|exact Pk].
Qed.
Print Assumptions C88_holidays_stand.

(** ** C89: weeks *)
Lemma cut_word (u r a b : bytes) : Forall (fun c => is_word c = true) u -> (forall x c, a = x ++ [c] -> is_word c = false) -> a <> [] -> a ++ b = u ++ r ->
  exists a', a = u ++ a' /\ a' ++ b = r /\ a' <> [].
Proof.
  intros Fu Ha Na E. apply app_eq_app in E as (z & [(Ea & Eb)|(Eu & Eb)]).
  - exists z. split; [exact Ea|]. split; [congruence|]. intros ->. rewrite app_nil_r in Ea. subst a. destruct (ends_in u Na) as (x & c & Ex). specialize (Ha x c Ex).
    rewrite Ex in Fu. apply Forall_app in Fu as [_ Fu]. inversion Fu; subst. congruence.
  - exfalso. destruct (ends_in a Na) as (x & c & Ex). specialize (Ha x c Ex). rewrite Eu, Ex in Fu. apply Forall_app in Fu as [Fu _]. apply Forall_app in Fu as [_ Fu]. inversion Fu; subst. congruence.
Qed.
Lemma cut_blank (s r a b : bytes) : blanks s -> (forall c y, b = c :: y -> is_space c = false) -> b <> [] -> a ++ b = s ++ r -> exists a', a = s ++ a' /\ a' ++ b = r.
Proof.
  intros Bs Hb Nb E. apply app_eq_app in E as (z & [(Ea & Eb)|(Es & Eb)]); [exists z; auto|].
  destruct z as [|c z]; [exists []; rewrite app_nil_r in Es; subst a; split; [rewrite app_nil_r; reflexivity|exact Eb]|].
  exfalso. specialize (Hb c (z ++ r) Eb). rewrite Es in Bs. apply Forall_app in Bs as [_ Bs]. inversion Bs; subst. congruence.
Qed.
Lemma ends_app (a b : bytes) : (forall x c, a ++ b = x ++ [c] -> is_word c = false) -> forall x c, b = x ++ [c] -> is_word c = false.
Proof. intros H x c ->. apply (H (a ++ x)). rewrite app_assoc. reflexivity. Qed.
Lemma week_lang_forms w : lang true week_re w -> low w ->
  (exists sp, w = bs "this" ++ sp ++ bs "week" /\ blanks sp) \/
  (exists kw s1 n s2 ws, w = kw ++ s1 ++ n ++ s2 ++ ws /\ (kw = bs "last" \/ kw = bs "next") /\ blanks s1 /\ blanks s2 /\ week_word ws /\ Forall (fun c => is_word c = true) n).
Proof.
  intros (u0 & v0 & -> & Z0 & u1 & v1 & -> & L & Z1) Lw. change (u0 = []) in Z0. change (v1 = []) in Z1. subst u0 v1. cbn [app] in *. rewrite app_nil_r in *. destruct L as [L|L].
  - right. destruct L as (kw & v & -> & Lk & s1 & v2 & -> & Ls1 & n & v3 & -> & Ln & s2 & ws & -> & Ls2 & Lws).
    apply low_app in Lw as [Lok Lw]. apply low_app in Lw as [_ Lw]. apply low_app in Lw as [_ Lw]. apply low_app in Lw as [_ Low].
    exists kw, s1, n, s2, ws. split; [reflexivity|]. split; [clear - Lk Lok; word_cases Lk; auto|]. split; [apply SPp_blanks in Ls1; apply Ls1|]. split; [eapply SPs_blanks; exact Ls2|].
    split; [clear - Lws Low; word_cases Lws; [left|right]; reflexivity|].
    destruct Ln as [->|[Ln|Ln]]; [constructor| |apply word_len; exact Ln].
    assert (D : Forall (fun c => is_digit c = true) n) by (apply (only_ok true is_digit wk_num); [vm_compute; reflexivity|exact Ln]). revert D. apply Forall_impl. intros c. clear.
    intros Hc. assert (Q : implb (is_digit c) (is_word c) = true) by (revert c Hc; intros c _; revert c; apply forall_ascii; vm_compute; reflexivity). rewrite Hc in Q. exact Q.
  - left. word_cases L. match goal with R : Forall _ ?x |- _ => exists x; apply space_run in R end. auto.
Qed.
(** [pre] does not end in "last" or "next" and white space *)
Definition not_after_keyword (pre : bytes) : Prop := forall a kw sp, pre = a ++ kw ++ sp -> kw = bs "last" \/ kw = bs "next" -> blanks sp -> False.
Lemma week_apart pre suf : (forall a c, pre = a ++ [c] -> is_word c = false) -> not_after_keyword pre -> (forall c y, suf = c :: y -> is_space c = false /\ c <> "w"%char) -> low (pre ++ suf) ->
  forall x a b v, pre = x ++ a -> a <> [] -> suf = b ++ v -> b <> [] -> ~ lang true week_re (a ++ b).
Proof.
  intros Sa Nk Hs Lo x a b v Ep Na Eb Nb L.
  assert (Ha : forall x c, a = x ++ [c] -> is_word c = false) by (intros y c Ea; apply (Sa (x ++ y)); rewrite Ep, Ea, app_assoc; reflexivity).
  assert (Hb : forall c y, b = c :: y -> is_space c = false /\ c <> "w"%char) by (intros c y Ec; rewrite Ec in Eb; apply (Hs c (y ++ v)); exact Eb).
  assert (Hb1 : forall c y, b = c :: y -> is_space c = false) by (intros c y Ec; apply (Hb c y Ec)).
  assert (Lw : low (a ++ b)). { rewrite Ep, Eb in Lo. replace ((x ++ a) ++ b ++ v) with (x ++ (a ++ b) ++ v) in Lo by (rewrite <- !app_assoc; reflexivity). exact (low_part _ _ _ Lo). }
  assert (Wd : forall ws r a, week_word ws -> a ++ b = ws ++ r -> (forall x c, a = x ++ [c] -> is_word c = false) -> a <> [] /\ exists a', a = ws ++ a' /\ a' ++ b = r).
  { intros ws r a' Ww E Ha'. assert (N : a' <> []).
    { intros ->. cbn [app] in E. destruct Ww as [-> | -> ]; cbn in E; destruct (Hb _ _ E); congruence. }
    split; [exact N|]. destruct (cut_word ws r a' b) as (a2 & A & B & _); auto; [|eauto]. destruct Ww as [-> | -> ]; repeat constructor. }
  destruct (week_lang_forms _ L Lw) as [(sp & E & Bs)|(kw & s1 & n & s2 & ws & E & K & B1 & B2 & Ww & Fn)].
  - apply cut_word in E as (a1 & -> & E & N1); [|repeat constructor|exact Ha|exact Na]. pose proof (ends_app _ _ Ha) as Ha1.
    apply cut_blank in E as (a2 & -> & E); [|exact Bs|exact Hb1|exact Nb]. pose proof (ends_app _ _ Ha1) as Ha2.
    destruct (Wd (bs "week") [] a2 (or_introl eq_refl)) as (_ & a3 & _ & E3); [rewrite app_nil_r; exact E|exact Ha2|]. apply app_eq_nil in E3 as [_ E3]. congruence.
  - apply cut_word in E as (a1 & -> & E & N1); [|destruct K as [-> | -> ]; repeat constructor|exact Ha|exact Na]. pose proof (ends_app _ _ Ha) as Ha1.
    apply cut_blank in E as (a2 & -> & E); [|exact B1|exact Hb1|exact Nb]. pose proof (ends_app _ _ Ha1) as Ha2.
    destruct a2 as [|y a2]; [rewrite app_nil_r in Ep; exact (Nk x kw s1 Ep K B1)|].
    apply cut_word in E as (a3 & E3 & E & N3); [|exact Fn|exact Ha2|discriminate]. rewrite E3 in Ha2. pose proof (ends_app _ _ Ha2) as Ha3.
    apply cut_blank in E as (a4 & -> & E); [|exact B2|exact Hb1|exact Nb]. pose proof (ends_app _ _ Ha3) as Ha4.
    destruct (Wd ws [] a4 Ww) as (_ & a5 & _ & E5); [rewrite app_nil_r; exact E|exact Ha4|]. apply app_eq_nil in E5 as [_ E5]. congruence.
Qed.
Ltac take_run := cbv zeta; intros p [-> | -> ]; (eexists; split; [vm_compute; reflexivity|split; vm_compute; reflexivity]).
Lemma takes_digits kw s1 n s2 ws : kw = bs "last" \/ kw = bs "next" -> s1 <> [] -> week_word ws -> n <> [] ->
  let l := cased kw kw ++ run s1 " " ++ run n "0" ++ run s2 " " ++ cased ws ws in takes_all apart week_re l (week_caps_of l (run n "0") 3).
Proof.
  intros K N W Nn. destruct s1 as [|c s1]; [congruence|]. destruct n as [|d n]; [congruence|].
  destruct K as [-> | ->], W as [-> | ->], s2 as [|b s2]; take_run.
Qed.
Lemma takes_words kw s1 n k s2 ws : kw = bs "last" \/ kw = bs "next" -> s1 <> [] -> week_word ws -> In (n, k) number_words -> s2 <> [] ->
  let l := cased kw kw ++ run s1 " " ++ cased (bs n) (bs n) ++ run s2 " " ++ cased ws ws in takes_all apart week_re l (week_caps_of l (cased (bs n) (bs n)) 4).
Proof.
  intros K N W I N2. destruct s1 as [|c s1]; [congruence|]. destruct s2 as [|b s2]; [congruence|].
  cbn in I; decompose [or] I; try contradiction; match goal with E : (_, _) = (_, _) |- _ => injection E as <- <- end;
  destruct K as [-> | ->], W as [-> | ->]; take_run.
Qed.
Lemma takes_this sp : let l := cased (bs "this") (bs "this") ++ run sp " " ++ cased (bs "week") (bs "week") in takes_all apart week_re l (week_caps_of l [] 3).
Proof. destruct sp; take_run. Qed.

(** without an amount: what follows must not be another "week" *)
Lemma none_starts o kw s1 ws post : word_opt o = false -> (kw = bs "last" \/ kw = bs "next") -> blanks s1 -> s1 <> [] -> week_word ws -> (forall c b, post = c :: b -> is_word c = false) ->
  starts_match true week_re o ((kw ++ s1 ++ ws) ++ post).
Proof.
  intros Ho K B N Ww Sb. rewrite <- !app_assoc. eexists. exists (mkst o (kw ++ s1 ++ ws ++ post) [(1%nat, [])]). split.
  { apply mt_WB_intro. unfold wb_at. rewrite Ho. destruct K as [-> | -> ]; reflexivity. }
  eexists. split.
  { exists (mkst (lastc ws (lastc s1 (lastc kw o))) post [(1%nat, [])]). split; [|reflexivity]. left.
    exists (mkst (lastc kw o) (s1 ++ ws ++ post) [(1%nat, [])]). split; [apply plain_mt; [reflexivity|destruct K as [-> | -> ]; cbn [bs list_ascii_of_string]; in_lang]|].
    exists (mkst (lastc s1 (lastc kw o)) (ws ++ post) [(1%nat, [])]). split; [apply plain_mt; [reflexivity|apply blanks_SPp; assumption]|].
    eexists. split; [left; reflexivity|]. exists (mkst (lastc s1 (lastc kw o)) (ws ++ post) [(1%nat, [])]). split; [exact (star_nil _ _)|].
    apply plain_mt; [reflexivity|destruct Ww as [-> | -> ]; cbn [bs list_ascii_of_string]; in_lang]. }
  apply mt_WB_intro. cbn [s_prev s_rest]. unfold wb_at. rewrite (separate_after _ Sb). destruct Ww as [-> | -> ]; reflexivity.
Qed.
Lemma wk_word_solid ws : week_word ws -> solid ws.
Proof. intros [-> | ->]; solid_lit. Qed.
Lemma none_same kw s1 ws post post' kw' s1' n' s2' ws' : (kw = bs "last" \/ kw = bs "next") -> blanks s1 -> s1 <> [] -> week_word ws -> word_opt (hd_error post) = false ->
  (forall sp b, post = sp ++ bs "week" ++ b -> blanks sp -> False) ->
  (kw' = bs "last" \/ kw' = bs "next") -> blanks s1' -> s1' <> [] -> blanks s2' -> week_word ws' -> word_opt (hd_error post') = false ->
  (n' = [] \/ (digits n' /\ n' <> []) \/ lang true wk_word n') ->
  (kw ++ s1 ++ ws) ++ post = (kw' ++ s1' ++ n' ++ s2' ++ ws') ++ post' -> n' = [] /\ kw' ++ s1' ++ n' ++ s2' ++ ws' = kw ++ s1 ++ ws.
Proof.
  intros K B N Ww Wp Nw K' B' N' B2 Ww' Wp' Q E. rewrite <- !app_assoc in E.
  assert (Kk : forall k, k = bs "last" \/ k = bs "next" -> solid k) by (intros k [-> | ->]; solid_lit).
  apply solid_tok in E as [-> E]; [|auto|auto|apply head_blank_app; assumption|apply head_blank_app; assumption].
  assert (Hw : forall x, head_solid (ws ++ x)) by (intros x; destruct Ww as [-> | ->]; reflexivity).
  assert (Hw' : forall x, head_solid (ws' ++ x)) by (intros x; destruct Ww' as [-> | ->]; reflexivity).
  destruct Q as [-> | [[D Nn]|L]].
  - cbn [app] in *. split; [reflexivity|]. rewrite (app_assoc s1') in E. apply blank_tok in E as [-> E]; [|exact B|apply Forall_app; split; assumption|apply Hw|apply Hw'].
    rewrite <- !app_assoc. do 3 f_equal. destruct Ww as [-> | ->], Ww' as [-> | ->]; cbn in E; try reflexivity; injection E as E; [rewrite E in Wp|rewrite <- E in Wp']; discriminate.
  - exfalso. destruct n' as [|c n']; [congruence|]. inversion D as [|? ? Dc _]; subst. apply blank_tok in E as [_ E]; [|exact B|exact B'|apply Hw|].
    + destruct Ww as [-> | ->]; cbn in E; injection E as <- _; discriminate.
    + cbn. clear - Dc. assert (Q : implb (is_digit c) (negb (is_space c)) = true) by (revert c Dc; intros c _; revert c; apply forall_ascii; vm_compute; reflexivity). rewrite Dc in Q. destruct (is_space c); [discriminate|reflexivity].
  - exfalso. destruct (word_len n' L) as [Fw Ln]. assert (Wd : forall c, is_word c = true -> is_space c = false).
    { intros c Hc. assert (Q : implb (is_word c) (negb (is_space c)) = true) by (revert c Hc; intros c _; revert c; apply forall_ascii; vm_compute; reflexivity). rewrite Hc in Q. destruct (is_space c); [discriminate|reflexivity]. }
    destruct n' as [|c0 [|c1 [|c2 n']]]; cbn in Ln; try lia. apply blank_tok in E as [_ E]; [|exact B|exact B'|apply Hw|cbn; apply Wd; inversion Fw; assumption].
    inversion Fw as [|? ? _ F1]; subst. inversion F1 as [|? ? _ F2]; subst. inversion F2 as [|? ? _ F3]; subst. clear Fw F1 F2.
    assert (Nk : forall c x, is_space c = false -> c <> "w"%char -> c :: x = s2' ++ ws' ++ post' -> False).
    { intros c x Hc Nc Ex. destruct s2' as [|b s2']; [destruct Ww' as [-> | ->]; cbn in Ex; congruence|]. cbn in Ex. injection Ex as -> _. inversion B2; subst. congruence. }
    assert (Nx : post = s2' ++ ws' ++ post' -> False).
    { intros Ex. destruct Ww' as [-> | ->]; [exact (Nw s2' post' Ex B2)|exact (Nw s2' (bs "s" ++ post') Ex B2)]. }
    destruct Ww as [-> | ->]; cbn [bs list_ascii_of_string app] in E; injection E as _ _ _ E; (destruct n' as [|c3 n']; [cbn [app] in E; revert E; apply Nk; [reflexivity|discriminate]|]); cbn [app] in E; injection E as _ E.
    + destruct n' as [|c4 n']; [exact (Nx E)|]. cbn [app] in E. rewrite E in Wp. cbn in Wp. inversion F3 as [|? ? _ F4]; subst. inversion F4; subst. congruence.
    + destruct n' as [|c4 n']; [cbn [app] in E; revert E; apply Nk; [reflexivity|discriminate]|]. cbn [app] in E. injection E as _ E.
      destruct n' as [|c5 n']; [exact (Nx E)|]. cbn [app] in E. rewrite E in Wp. cbn in Wp. inversion F3 as [|? ? _ F4]; subst. inversion F4 as [|? ? _ F5]; subst. inversion F5; subst. congruence.
Qed.

(** the amount the code reads, and the date *)
Definition week_read (m : mres) (n : bytes) (k : Z) : Prop :=
  (n = [] /\ k = 1 /\ grp m 3 = [] /\ grp m 4 = []) \/ (digits n /\ n <> [] /\ k = decimal n /\ decimal n <= 2147483647 /\ grp m 3 = n) \/
  (exists w, n = bs w /\ In (w, k) number_words /\ grp m 3 = [] /\ grp m 4 = n).
Lemma week_read_count texts g m n k : table_inv texts g -> week_read m n k -> exists g', week_count g m = (g', Ret k).
Proof.
  intros Ti [(-> & -> & G3 & G4)|[(D & Nn & -> & Lm & G3)|(w & -> & I & G3 & G4)]]; unfold week_count; rewrite G3.
  - rewrite G4. cbn [is_nil negb]. eauto.
  - destruct n as [|c n]; [congruence|]. cbn [is_nil negb]. rewrite stoi_digits by assumption. unfold INT_MAX. replace (_ <? decimal (c :: n)) with false by lia. eauto.
  - rewrite G4. cbn [is_nil negb]. pose proof (table_value _ g (bs w) Ti) as Tv. rewrite (word_table_known w k I) in Tv. destruct (gw_index g (bs w)) as [v g2]. cbn [fst] in Tv. subst v.
    cbn in I. decompose [or] I; try contradiction; match goal with E : (_, _) = (_, _) |- _ => injection E as <- <- end; cbn [is_nil negb bs list_ascii_of_string]; eauto.
Qed.
Lemma week_table e calls text t us g0 : past calls -> leads e week week_re (to_lower text) (ptime_of t us) (words_after e calls) g0 -> exists texts, table_inv texts g0.
Proof.
  intros Pc Ld. pose proof (words_table e calls Pc) as Ti. set (texts := text :: rev (texts_of calls)). apply (table_more _ text) in Ti. fold texts in Ti.
  exists texts. apply (Ld (table_inv texts)); [|exact Ti]. intros h off m idx Sm Pg. cbn [p_extract week]. destruct (week_extract e h (skipn off (to_lower text)) m (ptime_of t us) idx) as [g' o] eqn:Xw. cbn [fst].
  apply HistoryFacts.week_words in Xw as [-> | [N ->]]; [exact Pg|]. destruct (week_caps _ _ Sm) as [E|[Lw D]]; [congruence|]. apply (table_insert _ text); auto; [left; reflexivity|].
  apply (occurs_skipn _ off). apply (grp_occurs _ _ _ _ 4 Sm).
Qed.
Lemma week_result texts e g0 tx m t us idx g1 res kw s s1 n k s2 ws : table_inv texts g0 -> real_instant t us -> way kw s -> blanks s1 -> ~ In "a"%char n -> blanks s2 -> week_word ws ->
  grp m 2 = kw ++ s1 ++ n ++ s2 ++ ws -> week_read m n k -> week_extract e g0 tx m (ptime_of t us) idx = (g1, Ret res) ->
  exists c, days_after (s * (7 * k)) (mdate t) c /\ real_date c /\ date_implied (r_start res) c /\ untouched [WDay; Hour; Min; Sec; TzOffset] (r_start res) /\ has_end res = false.
Proof.
  intros Ti H K B1 Na B2 Ww G2 Rd X. destruct (week_read_count texts g0 m n k Ti Rd) as (g' & Wc). unfold week_extract in X. rewrite (pt_date_of _ _ H), Wc in X.
  apply (f_equal snd) in X. cbn [snd bind] in X. rewrite G2, (keyword_shift kw s s1 n s2 ws (dn_of (mdate t)) k K B1 Na B2 Ww) in X.
  apply imply_ymd_inv in X as (c & R & Ec & ->). exists c. split; [split; [apply R|unfold dn_of in Ec; lia]|]. split; [exact R|].
  split; [|split; [repeat constructor|reflexivity]]. repeat split.
Qed.

Lemma caps_grp c m i : m_caps m = caps_text c -> (1 <= i)%nat -> grp m i = cap_lookup i (caps_text c).
Proof. intros E Hi. unfold grp. rewrite E. destruct i; [lia|reflexivity]. Qed.

Theorem C89_weeks_stand : forall e calls text t us pre kw s s1 n s2 k ws post rs, sane e -> past calls -> real_instant t us -> Z.of_nat (List.length text) < 2 ^ 32 ->
  way kw s -> blanks s1 -> s1 <> [] -> week_amount n s2 k -> week_word ws ->
  to_lower text = pre ++ (kw ++ s1 ++ n ++ s2 ++ ws) ++ post -> separate pre post -> not_after_keyword pre -> (n = [] -> forall sp b, post = sp ++ bs "week" ++ b -> ~ blanks sp) ->
  x_res (execute e week (words_after e calls) text (ptime_of t us)) = Ret rs ->
  exists res c, In res rs /\ stands res pre (kw ++ s1 ++ n ++ s2 ++ ws) /\ has_end res = false /\
    days_after (s * (7 * k)) (mdate t) c /\ real_date c /\ date_implied (r_start res) c /\ untouched [WDay; Hour; Min; Sec; TzOffset] (r_start res).
Proof.
  intros e calls text t us pre kw s s1 n s2 k ws post rs He Pc H Hn K B1 N1 A Ww E Sp Nk Nw X. set (g := words_after e calls) in *.
  assert (Kw : kw = bs "last" \/ kw = bs "next") by (destruct K as [[-> _]|[-> _]]; auto).
  pose proof (amount_no_a _ _ _ A) as Na. pose proof (amount_blanks _ _ _ A) as B2.
  assert (No : forall x a b v, pre = x ++ a -> a <> [] -> (kw ++ s1 ++ n ++ s2 ++ ws) ++ post = b ++ v -> b <> [] -> ~ lang true week_re (a ++ b)).
  { apply week_apart; [apply Sp|exact Nk| |rewrite <- E; apply low_to_lower]. intros c y Ec. destruct Kw as [-> | ->]; cbn in Ec; injection Ec as <- _; split; [reflexivity|discriminate|reflexivity|discriminate]. }
  assert (Q : exists tx m g0 g1 res, low tx /\ search true week_re tx = Some m /\ m_str m = kw ++ s1 ++ n ++ s2 ++ ws /\ grp m 2 = m_str m /\ week_read m n k /\
    week_extract e g0 tx m (ptime_of t us) (Z.of_nat (List.length pre)) = (g1, Ret res) /\ getIndex res = Z.of_nat (List.length pre) /\ r_text res = m_str m /\
    (hasPossibleDates res = true -> In (res_copy res) rs) /\ leads e week week_re (to_lower text) (ptime_of t us) g g0).
  { match goal with |- ?G => assert (Fin : forall l i ni, takes_all apart week_re l (week_caps_of l ni i) -> Forall (item_ok' true week_re) l -> items_text l = kw ++ s1 ++ n ++ s2 ++ ws -> ni <> [] ->
      (forall m, grp m 3 = (if Nat.eqb i 3 then items_text ni else []) -> grp m 4 = (if Nat.eqb i 4 then items_text ni else []) -> week_read m n k) -> i = 3%nat \/ i = 4%nat -> G) end.
    { intros l i ni Tk Fl El Nn Rd Hi.
      destruct (phrase_at_gen e week week_re (ptime_of t us) text g rs pre post l (week_caps_of l ni i) apart He in_week locates_week week_compile Hn) as (tx & m & g0 & g1 & res & A1 & A2 & A3 & A4 & A5 & A6 & A7 & A8 & A9).
      - rewrite El. exact E.
      - exact Sp.
      - eapply separate_tail; exact Sp.
      - exact Tk.
      - exact Fl.
      - rewrite El. exact No.
      - exact X.
      - exists tx, m, g0, g1, res. split; [exact A2|]. split; [exact A1|]. split; [congruence|]. destruct ni as [|z ni]; [congruence|].
        assert (Gi : forall j, grp m (S j) = cap_lookup (S j) (caps_text (week_caps_of l (z :: ni) i))) by (intros j; apply caps_grp; [exact A4|lia]).
        split; [rewrite Gi, A3; reflexivity|]. split; [apply Rd; rewrite Gi; destruct Hi as [-> | ->]; reflexivity|]. split; [exact A5|]. split; [exact A6|]. split; [congruence|]. split; [exact A8|exact A9]. }
    destruct A as [|n s2 D Nn Bs Lm|w k s2 I Bs N2].
    - (* no amount *)
      cbn [app] in *.
      destruct (found_at e week week_re (ptime_of t us) text g rs pre ((kw ++ s1 ++ ws) ++ post) He in_week locates_week week_compile Hn E) as (j & m & g0 & g1 & res & r & A1 & A2 & A3 & A4 & A5 & A6 & A7 & A8 & A9 & A10).
      + intros j _. apply none_starts; auto; [apply lastc_skipn_word; apply Sp|apply Sp].
      + exact No.
      + exact X.
      + assert (Wr : word_opt (hd_error r) = false).
        { apply rm_sound in A5 as ([q t' cc] & M & Ek). apply some_inj in Ek. injection Ek as -> -> ->. unfold week_re in M. destruct M as (z1 & _ & z2 & M2 & M3). destruct z2 as [z2p z2r z2c]. apply mt_WB in M3 as [Wb Ez]. injection Ez as E1 E2 _.
          apply (wb_end z2p); [|rewrite E2; exact Wb]. rewrite <- E1.
          assert (Z : exists y, m_str m = y ++ bs "week" \/ m_str m = y ++ bs "weeks").
          { destruct (week_match _ _ A2 A3) as [(sp' & Em & _)|(kw' & s1' & n' & s2' & ws' & Em & _ & _ & _ & _ & Ww' & _)].
            - exists (bs "this" ++ sp'). left. rewrite Em, <- app_assoc. reflexivity.
            - exists (kw' ++ s1' ++ n' ++ s2'). rewrite Em, <- !app_assoc. destruct Ww' as [-> | ->]; auto. }
          destruct Z as (y & [-> | ->]); rewrite lastc_app; reflexivity. }
        destruct (week_match _ _ A2 A3) as [(sp' & Em & _)|(kw' & s1' & n' & s2' & ws' & Em & K' & B1' & N1' & B2' & Ww' & G2 & Q)].
        * exfalso. rewrite Em in A4. destruct Kw as [-> | ->]; cbn in A4; discriminate.
        * assert (Qn : n' = [] \/ (digits n' /\ n' <> []) \/ lang true wk_word n') by (destruct Q as [(Q & _)|[(Q1 & Q2 & _)|(Q & _)]]; auto).
          rewrite Em in A4. destruct (none_same kw s1 ws post r kw' s1' n' s2' ws' Kw B1 N1 Ww (separate_after _ (proj2 Sp)) (fun sp b Ep Bp => Nw eq_refl sp b Ep Bp) K' B1' N1' B2' Ww' Wr Qn A4) as [Zn Zs].
          exists (skipn j (to_lower text)), m, g0, g1, res. split; [exact A3|]. split; [exact A2|]. split; [congruence|]. split; [exact G2|].
          split; [left; destruct Q as [(_ & G3 & G4)|[(_ & Q & _)|(Q & _)]]; [auto|congruence|destruct (word_len _ Q) as [_ Q']; rewrite Zn in Q'; cbn in Q'; lia]|].
          split; [exact A6|]. split; [exact A7|]. split; [exact A8|]. split; [exact A9|exact A10].
    - apply (Fin (cased kw kw ++ run s1 " " ++ run n "0" ++ run s2 " " ++ cased ws ws) 3%nat (run n "0")).
      + apply takes_digits; auto.
      + apply Forall_app; split; [apply self_ok|]. apply Forall_app; split; [apply (run_items_ok _ _ _ _ wk_blank B1)|].
        apply Forall_app; split; [apply (run_items_ok _ _ _ _ wk_digit D)|]. apply Forall_app; split; [apply (run_items_ok _ _ _ _ wk_blank B2)|apply self_ok].
      + rewrite !items_text_app, !run_text, !self_text. reflexivity.
      + destruct n; [congruence|discriminate].
      + intros m G3 G4. cbn [Nat.eqb] in G3. rewrite run_text in G3. right. left. auto.
      + auto.
    - apply (Fin (cased kw kw ++ run s1 " " ++ cased (bs w) (bs w) ++ run s2 " " ++ cased ws ws) 4%nat (cased (bs w) (bs w))).
      + apply (takes_words kw s1 w k s2 ws); auto.
      + apply Forall_app; split; [apply self_ok|]. apply Forall_app; split; [apply (run_items_ok _ _ _ _ wk_blank B1)|].
        apply Forall_app; split; [apply self_ok|]. apply Forall_app; split; [apply (run_items_ok _ _ _ _ wk_blank B2)|apply self_ok].
      + rewrite !items_text_app, !run_text, !self_text. reflexivity.
      + clear - I. cbn in I. decompose [or] I; try contradiction; match goal with E : (_, _) = (_, _) |- _ => injection E as <- <- end; discriminate.
      + intros m G3 G4. cbn [Nat.eqb] in G3, G4. rewrite self_text in G4. right. right. exists w. auto.
      + auto. }
  destruct Q as (tx & m & g0 & g1 & res & Lx & Sx & Em & G2 & Rd & Xw & Ix & Tx & Ks & Ld).
  destruct (week_table e calls text t us g0 Pc Ld) as (texts & Ti).
  destruct (week_result texts e g0 tx m t us _ g1 res kw s s1 n k s2 ws Ti H K B1 Na B2 Ww ltac:(congruence) Rd Xw) as (c & D & R & Dc & U & En).
  exists (res_copy res), c. split; [apply Ks; eapply date_implied_possible; eassumption|]. split; [split; [exact Ix|change (r_text (res_copy res)) with (r_text res); congruence]|].
  split; [exact En|]. split; [exact D|]. split; [exact R|]. split; [exact Dc|exact U].
Qed.
Print Assumptions C89_weeks_stand.

Theorem C89_this_week_stands : forall e calls text t us pre sp post rs, sane e -> past calls -> real_instant t us -> Z.of_nat (List.length text) < 2 ^ 32 ->
  blanks sp -> to_lower text = pre ++ (bs "this" ++ sp ++ bs "week") ++ post -> separate pre post -> not_after_keyword pre ->
  x_res (execute e week (words_after e calls) text (ptime_of t us)) = Ret rs ->
  exists res, In res rs /\ stands res pre (bs "this" ++ sp ++ bs "week") /\ has_end res = false /\
    date_implied (r_start res) (mdate t) /\ untouched [WDay; Hour; Min; Sec; TzOffset] (r_start res).
Proof.
  intros e calls text t us pre sp post rs He Pc H Hn B E Sp Nk X. set (g := words_after e calls) in *. pose proof (proj1 (proj1 H)) as R.
  assert (No : forall x a b v, pre = x ++ a -> a <> [] -> (bs "this" ++ sp ++ bs "week") ++ post = b ++ v -> b <> [] -> ~ lang true week_re (a ++ b)).
  { apply week_apart; [apply Sp|exact Nk| |rewrite <- E; apply low_to_lower]. intros c y Ec. cbn in Ec; injection Ec as <- _; split; [reflexivity|discriminate]. }
  set (l := cased (bs "this") (bs "this") ++ run sp " " ++ cased (bs "week") (bs "week")).
  assert (El : items_text l = bs "this" ++ sp ++ bs "week") by (unfold l; rewrite !items_text_app, run_text, !self_text; reflexivity).
  destruct (phrase_at_gen e week week_re (ptime_of t us) text g rs pre post l (week_caps_of l [] 3) apart He in_week locates_week week_compile Hn) as (tx & m & g0 & g1 & res & A1 & A2 & A3 & A4 & A5 & A6 & A7 & A8 & A9).
  - rewrite El. exact E.
  - exact Sp.
  - eapply separate_tail; exact Sp.
  - exact (takes_this sp).
  - unfold l. apply Forall_app; split; [apply self_ok|]. apply Forall_app; split; [apply (run_items_ok _ _ _ _ wk_blank B)|apply self_ok].
  - rewrite El. exact No.
  - exact X.
  - destruct (week_match tx m A1 A2) as [(sp' & Em & B' & G2 & G3 & G4)|(kw & s1 & n & s2 & ws & Em & K & _)].
    2:{ exfalso. rewrite A3, El in Em. destruct K as [-> | ->]; cbn in Em; discriminate. }
    cbn [p_extract week] in A5. unfold week_extract, week_count in A5. rewrite (pt_date_of _ _ H), G3, G4 in A5. cbn [is_nil negb] in A5. apply (f_equal snd) in A5. cbn [snd bind] in A5.
    assert (N : forall c, In c (m_str m) -> c <> "a"%char /\ c <> "n"%char).
    { intros c I. rewrite Em in I. apply in_app_or in I as [I|I]; [cbn in I; split; intros ->; intuition discriminate|]. apply in_app_or in I as [I|I]; [|cbn in I; split; intros ->; intuition discriminate].
      unfold blanks in B'. rewrite Forall_forall in B'. specialize (B' c I). split; intros ->; discriminate. }
    rewrite G2 in A5. rewrite (contains_without (bs "last") _ "a"%char) in A5; [|cbn; tauto|intros I; apply (proj1 (N _ I)); reflexivity].
    rewrite (contains_without (bs "next") _ "n"%char) in A5; [|cbn; tauto|intros I; apply (proj2 (N _ I)); reflexivity].
    apply imply_ymd_inv in A5 as (c & Rc & Ec & Er).
    assert (c = mdate t) as ->.
    { apply rd_inj; [apply Rc|apply R|]. unfold dn_of in Ec. lia. }
    assert (D : date_implied (r_start res) (mdate t)) by (rewrite Er; repeat split).
    exists (res_copy res). split; [apply A8; eapply date_implied_possible; eassumption|].
    split; [split; [exact A6|change (r_text (res_copy res)) with (r_text res); congruence]|]. split; [rewrite Er; reflexivity|]. split; [exact D|rewrite Er; repeat constructor].
Qed.
Print Assumptions C89_this_week_stands.

(** ** The hypotheses are met: phrases in the middle of a sentence *)
Lemma separate_dec pre post : word_opt (lastc pre None) = false -> word_opt (hd_error post) = false -> separate pre post.
Proof. intros A B. split; [intros a c ->; rewrite lastc_app in A; exact A|intros c b ->; exact B]. Qed.
Fixpoint drop_blanks (l : bytes) : bytes := match l with c :: l' => if is_space c then drop_blanks l' else l | [] => [] end.
Lemma drop_blanks_app sp r : blanks sp -> head_solid r -> drop_blanks (sp ++ r) = r.
Proof. induction 1 as [|c sp Hc B IH]; cbn; intros Hr; [destruct r; [reflexivity|cbn in Hr |- *; rewrite Hr; reflexivity]|]. rewrite Hc. auto. Qed.
Lemma not_after_dec pre : starts_with (bs "tsal") (drop_blanks (rev pre)) = false -> starts_with (bs "txen") (drop_blanks (rev pre)) = false -> not_after_keyword pre.
Proof.
  intros A B a kw sp -> K Bs. rewrite !rev_app_distr, <- !app_assoc in A, B. assert (Br : blanks (rev sp)) by (apply Forall_rev; exact Bs).
  destruct K as [-> | ->]; rewrite (drop_blanks_app _ _ Br) in A, B by reflexivity; cbn in A, B; discriminate.
Qed.

Example C85_case : exists r1 r2, let t := Moment (Cal 2024 2 29) 7 30 0 in
  real_instant t 5 /\ neighbours (mdate t) /\ casual_phrase (bs "tomorrow") /\ separate (bs "not tonight, ") (bs "?") /\ to_lower (bs "Not tonight, TOMORROW?") = bs "not tonight, " ++ bs "tomorrow" ++ bs "?" /\
  x_res (execute strict_env casual_date gwords_init (bs "Not tonight, TOMORROW?") (ptime_of t 5)) = Ret [r1; r2] /\ stands r2 (bs "not tonight, ") (bs "tomorrow") /\ toDate r2 = Ret (bs "2024-Mar-01 00:00:00").
Proof.
  eexists. eexists. cbv zeta. split; [inst|]. split; [exists (Cal 2024 2 28), (Cal 2024 3 1); inst|]. split; [left; cbn; tauto|]. split; [apply separate_dec; reflexivity|]. split; [reflexivity|].
  split; [vm_compute; reflexivity|]. split; [split; vm_compute; reflexivity|vm_compute; reflexivity].
Qed.
Example C86_case : exists r, let t := Moment (Cal 2024 1 31) 9 15 0 in
  real_instant t 3 /\ deadline_phrase (bs "within  a few months") (bs "a few") (bs "months") /\ spells (bs "a few") (Whole 3) /\ separate (bs "due in or ") (bs ", not in 2040") /\
  to_lower (bs "Due in or Within  a few months, not in 2040") = bs "due in or " ++ bs "within  a few months" ++ bs ", not in 2040" /\
  x_res (execute strict_env deadline gwords_init (bs "Due in or Within  a few months, not in 2040") (ptime_of t 3)) = Ret [r] /\ stands r (bs "due in or ") (bs "within  a few months") /\ toDate r = Ret (bs "2024-Apr-30 00:00:00").
Proof.
  eexists. cbv zeta. split; [inst|]. split.
  { exists (bs "within"), (bs "  "), (bs " "). split; [reflexivity|]. split; [auto|]. repeat split; try discriminate; repeat constructor. }
  split; [apply (sp_few (bs "a") (bs " ")); [left; reflexivity|repeat constructor|discriminate]|]. split; [apply separate_dec; reflexivity|]. split; [reflexivity|].
  split; [vm_compute; reflexivity|]. split; [split; vm_compute; reflexivity|vm_compute; reflexivity].
Qed.
Example C87_case : exists r, date_loose (bs "2012") (bs "8") (bs "10") /\ separate (bs "from 99 to ") (bs " or later") /\ (forall a x, bs "from 99 to " = a ++ [x] -> ~ In x (bs ":.+-")) /\
  x_res (execute strict_env iso gwords_init (bs "From 99 to 2012-8-10 or later") noon2024) = Ret [r] /\ stands r (bs "from 99 to ") (iso_text (bs "2012") (bs "8") (bs "10") None) /\ toDate r = Ret (bs "2012-Aug-10 00:00:00").
Proof.
  eexists. split; [repeat split; try (repeat constructor); cbn; auto|]. split; [apply separate_dec; reflexivity|]. split.
  { intros a x E. apply (app_inj_tail (bs "from 99 to")) in E as [_ <-]. cbn. intuition discriminate. }
  split; [vm_compute; reflexivity|]. split; [split; vm_compute; reflexivity|vm_compute; reflexivity].
Qed.
Example C88_case : exists r, let t := Moment (Cal 2024 5 20) 9 15 0 in In ("memorial", LastDay 1 5) plain_names /\ separate (bs "see you on ") (bs ".") /\
  x_res (execute strict_env holiday gwords_init (bs "See you on Memorial  Day.") (ptime_of t 0)) = Ret [r] /\ stands r (bs "see you on ") (bs "memorial" ++ bs "  " ++ bs "day") /\ toDate r = Ret (bs "2024-May-27 00:00:00").
Proof.
  eexists. cbv zeta. split; [cbn; auto 20|]. split; [apply separate_dec; reflexivity|]. split; [vm_compute; reflexivity|]. split; [split; vm_compute; reflexivity|vm_compute; reflexivity].
Qed.
Example C89_case : exists r1 r2, let t := Moment (Cal 2024 2 20) 5 6 7 in let calls := [(week, bs "next lasting weeks", ptime_of t 0)] in
  past calls /\ real_instant t 1 /\ separate (bs "not this week but ") (bs " or so") /\ not_after_keyword (bs "not this week but ") /\ not_after_keyword (bs "not ") /\ week_amount (bs "twelve") (bs "  ") 12 /\ week_word (bs "weeks") /\
  x_res (execute strict_env week (words_after strict_env calls) (bs "Not this week but next Twelve  weeks or so") (ptime_of t 1)) = Ret [r1; r2] /\
  stands r1 (bs "not ") (bs "this week") /\ toDate r1 = Ret (bs "2024-Feb-20 00:00:00") /\ stands r2 (bs "not this week but ") (bs "next twelve  weeks") /\ toDate r2 = Ret (bs "2024-May-14 00:00:00").
Proof.
  eexists. eexists. cbv zeta. split; [intros c [<- | []]; apply in_week|]. split; [inst|]. split; [apply separate_dec; reflexivity|]. split; [apply not_after_dec; reflexivity|]. split; [apply not_after_dec; reflexivity|].
  split; [apply (wa_word "twelve" 12 (bs "  ")); [cbn; auto 20|repeat constructor|discriminate]|]. split; [right; reflexivity|].
  split; [vm_compute; reflexivity|]. split; [split; vm_compute; reflexivity|]. split; [vm_compute; reflexivity|]. split; [split; vm_compute; reflexivity|vm_compute; reflexivity].
Qed.

(** ** C90: the program never answers "Invalid date" to a text that contains such a phrase *)
Inductive date_phrase : bytes -> bytes -> bytes -> Prop :=
| dp_casual pre w post : casual_phrase w -> date_phrase pre w post
| dp_deadline pre w post n u q : deadline_phrase w n u -> spells n q -> In u (map bs all_units) -> (forall k, q = Whole k -> k <= INT_MAX) -> date_phrase pre w post
| dp_iso pre yy mm dd post : date_loose yy mm dd -> 1 <= decimal mm <= 12 -> 1 <= decimal dd <= 31 -> (forall a x, pre = a ++ [x] -> ~ In x (bs ":.+-")) ->
    date_phrase pre (ymd_text yy mm dd) post
| dp_holiday pre x r sp post : In (x, r) plain_names -> blanks sp -> sp <> [] -> date_phrase pre (bs x ++ sp ++ bs "day") post
| dp_week pre kw s s1 n s2 k ws post : way kw s -> blanks s1 -> s1 <> [] -> week_amount n s2 k -> week_word ws -> not_after_keyword pre ->
    (n = [] -> forall sp b, post = sp ++ bs "week" ++ b -> ~ blanks sp) -> date_phrase pre (kw ++ s1 ++ n ++ s2 ++ ws) post
| dp_this_week pre sp post : blanks sp -> not_after_keyword pre -> date_phrase pre (bs "this" ++ sp ++ bs "week") post.

Theorem C90_program_finds : forall e sortf text t us pre w post out, sane e -> is_sort sortf -> real_instant t us -> neighbours (mdate t) -> Z.of_nat (List.length text) < 2 ^ 32 ->
  to_lower text = pre ++ w ++ post -> separate pre post -> date_phrase pre w post ->
  main e sortf gwords_init text (ptime_of t us) = Ret out ->
  out <> invalid_message /\
  exists rs res sp r more s, (forall x, In x rs <-> exists p l, In p parsers /\ alone e p text (ptime_of t us) = Ret l /\ In x l) /\
    In res rs /\ stands res pre (w ++ sp) /\ blanks sp /\
    run_refiners (sortf rs) (to_lower text) = Ret (r :: more) /\ toDate r = Ret s /\ out = line s.
Proof.
  intros e sortf text t us pre w post out He Hs H N Hn E Sp Dp M.
  assert (R : forall p, In p parsers -> exists l, alone e p text (ptime_of t us) = Ret l).
  { intros p Ip. rewrite main_alone in M. apply bind_ret in M as (rs & Ea & _). apply all_alone_ret in Ea as (rss & F & _). clear - F Ip.
    induction F as [|q l ps rss Eq F IH]; [contradiction|]. destruct Ip as [<-|Ip]; [eauto|auto]. }
  assert (Q : exists p l res sp, In p parsers /\ alone e p text (ptime_of t us) = Ret l /\ In res l /\ stands res pre (w ++ sp) /\ blanks sp).
  { assert (Fin : forall p l res, In p parsers -> alone e p text (ptime_of t us) = Ret l -> In res l -> stands res pre w ->
      exists p l res sp, In p parsers /\ alone e p text (ptime_of t us) = Ret l /\ In res l /\ stands res pre (w ++ sp) /\ blanks sp).
    { intros p l res Ip El Ir St. exists p, l, res, []. rewrite app_nil_r. repeat split; auto; try apply St. constructor. }
    destruct Dp as [pre w post Cw|pre w post n u q D1 D2 D3 D4|pre yy mm dd post D1 D2 D3 D4|pre x r sp post D1 D2 D3|pre kw s s1 n s2 k ws post D1 D2 D3 D4 D5 D6 D7|pre sp post D1 D2].
    - destruct (C85_casual_dates_stand e gwords_init text t us pre w post He H N Hn Cw E Sp) as (rs & res & sp & X & I & St & B).
      exists casual_date, rs, res, sp. split; [cbn; tauto|]. auto.
    - destruct (R deadline) as (l & El); [cbn; tauto|].
      destruct (C86_deadlines_stand e text t us pre w post n u q l He H Hn D1 D2 D3 D4 E Sp El) as (res & I & St & _). apply (Fin deadline l res); auto. cbn; tauto.
    - destruct (R iso) as (l & El); [cbn; tauto|].
      destruct (C87_iso_stand e gwords_init text (ptime_of t us) pre yy mm dd None post l He Hn D1 D2 D3 I) as (res & Ir & St & _); auto.
      { unfold iso_text. rewrite app_nil_r. exact E. }
      apply (Fin iso l res); auto. { cbn; tauto. } unfold iso_text in St. rewrite app_nil_r in St. exact St.
    - destruct (R holiday) as (l & El); [cbn; tauto|].
      destruct (C88_holidays_stand e gwords_init text t us pre x r sp post l He H Hn D1 D2 D3 E Sp El) as (res & I & St & _). apply (Fin holiday l res); auto. cbn; tauto.
    - destruct (R week) as (l & El); [cbn; tauto|].
      destruct (C89_weeks_stand e [] text t us pre kw s s1 n s2 k ws post l He ltac:(intros c []) H Hn D1 D2 D3 D4 D5 E Sp D6 D7 El) as (res & c & I & St & _). apply (Fin week l res); auto. cbn; tauto.
    - destruct (R week) as (l & El); [cbn; tauto|].
      destruct (C89_this_week_stands e [] text t us pre sp post l He ltac:(intros c []) H Hn D1 E Sp D2 El) as (res & I & St & _). apply (Fin week l res); auto. cbn; tauto. }
  destruct Q as (p & l & res & sp & Ip & El & Ir & St & B).
  assert (Ne : out <> invalid_message).
  { intros ->. apply (C54_invalid_iff_nothing e sortf text (ptime_of t us) He Hs) with (p := p) in M; [|exact Ip]. rewrite El in M. apply ret_inv in M. subst l. contradiction. }
  split; [exact Ne|]. destruct (C54_prints_first e sortf text (ptime_of t us) out He Hs M Ne) as (rs & r & more & s & A & Rf & Td & Eo).
  exists rs, res, sp, r, more, s. split; [exact A|]. split; [apply A; exists p, l; auto|]. auto.
Qed.
Print Assumptions C90_program_finds.
(** the hypotheses are met *)
Example C90_case : let t := Moment (Cal 2024 2 20) 5 6 7 in real_instant t 1 /\ neighbours (mdate t) /\ separate (bs "shall we meet ") (bs ", or not?") /\ date_phrase (bs "shall we meet ") (bs "next" ++ bs " " ++ [] ++ [] ++ bs "week") (bs ", or not?") /\
  main strict_env sort_stable gwords_init (bs "Shall we meet next week, or not?") (ptime_of t 1) = Ret (line (bs "2024-Feb-27 00:00:00")).
Proof.
  cbv zeta. split; [inst|]. split; [exists (Cal 2024 2 19), (Cal 2024 2 21); inst|]. split; [apply separate_dec; reflexivity|]. split; [|vm_compute; reflexivity].
  apply (dp_week _ (bs "next") 1 (bs " ") [] [] 1 (bs "week")); [right; auto|repeat constructor|discriminate|constructor|left; reflexivity|apply not_after_dec; reflexivity|].
  intros _ sp b Ex Bs. destruct sp as [|c sp]; [discriminate|]. injection Ex as <- _. inversion Bs; subst; discriminate.
Qed.
