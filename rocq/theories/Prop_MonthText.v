(** * Dates such as "March 5" anywhere in a text (C98) *)
From Verif Require Import Base Regex RegexParse Calendar Components Utils Execute Spec View ParserSpec PhraseSpec ClockSpec MiddleSpec CalendarCycle CalendarFacts RegexFacts ResultFacts
  ExecuteFacts ParserRe MatchFacts LocateFacts HistoryFacts ParserFacts NumberFacts Symbolic Open Segments FoundFacts P_MiddleEndian MiddleFacts MiddleMatch MiddleMean MiddleFamily MiddleRuns Prop_Casual Prop_Month Prop_Middle Prop_Found Refiners Main Prop_Execute Prop_Tags MainFacts Prop_Main Prop_Answers Prop_Sentence Alphabet.
From Coq Require Import ZifyBool ZifyNat ZifyN.
Open Scope string_scope.
Open Scope list_scope.
Open Scope Z_scope.

(** the pattern after the optional day of the week *)
Definition me_rest : re := Eval cbv delta [middle_endian_re] in match middle_endian_re with RCat _ (RCat _ r) => r | r => r end.
Lemma me_split w : lang true middle_endian_re w -> exists l v, w = l ++ v /\ lang true (ROpt true me_lead) l /\ lang true me_rest v.
Proof.
  intros (u & w' & -> & Hu & l & v & -> & Hl & Hv). assert (u = []) as -> by exact Hu. exists l, v. auto.
Qed.
Lemma lead_part l : low l -> l <> [] -> lang true (ROpt true me_lead) l -> exists k, weekday_part l (Some k).
Proof.
  intros Lo N [->|(on & l1 & -> & Hon & wd & l2 & -> & Hw & sp & l3 & -> & Hs & c & sp' & -> & Hc & Hs')]; [congruence|].
  apply low_app in Lo as [Lo Lo1]. apply low_app in Lo1 as [Lw Lo2]. apply low_app in Lo2 as [_ Lo3]. apply low_app in Lo3 as [Lc _].
  destruct (wday_word wd Lw Hw) as (k & Wk & _). exists k, on, wd, sp, c, sp'. split; [reflexivity|].
  split. { destruct Hon as [->|Hon]; [left; reflexivity|]. right. me_words. eauto. }
  split; [exact Wk|]. me_words. split; [exact Hs|]. split; [|exact Hs']. destruct Hc as [->|Hc]; [left; reflexivity|right]. apply comma_word in Hc. exact Hc.
Qed.

(** ** No earlier match reaches into the phrase *)
(** no name of a day of the week before the phrase that the program would join to it, and no "on" before the name with which it begins *)
Definition no_weekday_before (pre suf : bytes) : Prop := forall x a b v k, pre = x ++ a -> a <> [] -> suf = b ++ v -> ~ weekday_part (a ++ b) (Some k).
Definition heads : list string := ["jan"; "feb"; "mar"; "apr"; "may"; "jun"; "jul"; "aug"; "sep"; "oct"; "nov"; "dec"; "sun"; "mon"; "tue"; "wed"; "thu"; "fri"; "sat"; "on "].
Lemma heads_clear : forallb (fun h => known_clear (bs h) me_rest) heads = true.
Proof. vm_compute. reflexivity. Qed.
Definition headed (w : bytes) : bool := existsb (fun h => if list_eq_dec ascii_dec (bs h) (firstn 3 w) then true else false) heads.
Lemma headed_ok w z : headed w = true -> exists h v, In h heads /\ w ++ z = bs h ++ v.
Proof.
  intros H. apply existsb_exists in H as (h & Ih & E). destruct (list_eq_dec ascii_dec (bs h) (firstn 3 w)) as [Eh|]; [|discriminate]. exists h, (skipn 3 w ++ z). split; [exact Ih|].
  rewrite Eh, app_assoc, firstn_skipn. reflexivity.
Qed.
Lemma months_headed : forallb (fun s => headed (bs (fst s)) && headed (bs (fst s) ++ bs ".")) (month_names ++ month_short_names) = true. Proof. vm_compute. reflexivity. Qed.
Lemma weekdays_headed : forallb (fun s => headed (bs (fst s))) weekday_words = true. Proof. vm_compute. reflexivity. Qed.
Lemma plain_head tx x : plain_month_day tx x -> exists h v, In h heads /\ tx = bs h ++ v.
Proof.
  intros (l & mw & sep & dw & sp & rg & yr & -> & Pl & (s & Mw) & _).
  assert (Hm : headed mw = true).
  { pose proof months_headed as Q. rewrite forallb_forall in Q. destruct Mw as [[I ->]|[I [-> | ->]]].
    - specialize (Q (s, md_month x) ltac:(apply in_or_app; left; exact I)). apply andb_prop in Q as [Q _]. exact Q.
    - specialize (Q (s, md_month x) ltac:(apply in_or_app; right; exact I)). apply andb_prop in Q as [Q _]. exact Q.
    - specialize (Q (s, md_month x) ltac:(apply in_or_app; right; exact I)). apply andb_prop in Q as [_ Q]. exact Q. }
  destruct (md_weekday x) as [k|]; cbn [plain_weekday] in Pl; [|subst l; exact (headed_ok mw _ Hm)].
  destruct Pl as (on & d & c & sp0 & -> & On & (w & I & ->) & _). rewrite <- !app_assoc. destruct On as [-> | ->].
  - pose proof weekdays_headed as Q. rewrite forallb_forall in Q. specialize (Q _ I). exact (headed_ok (bs w) _ Q).
  - exists "on ". eexists. split; [|reflexivity]. unfold heads. repeat (try (left; reflexivity); right).
Qed.
Lemma none_reach pre tx x T : plain_month_day tx x -> no_weekday_before pre (tx ++ T) -> (forall a c, pre = a ++ [c] -> is_word c = false) -> low (pre ++ tx ++ T) ->
  forall y a b v, pre = y ++ a -> a <> [] -> tx ++ T = b ++ v -> b <> [] -> ~ lang true middle_endian_re (a ++ b).
Proof.
  intros P Nw Sa Lo y a b v Ep Na Eb Nb L. destruct (plain_head tx x P) as (h & z & Ih & Eh).
  pose proof heads_clear as Hc. rewrite forallb_forall in Hc. specialize (Hc h Ih).
  assert (Hn : bs h <> []) by (clear - Ih; cbn in Ih; decompose [or] Ih; subst; try contradiction; discriminate).
  assert (Lab : low (a ++ b)).
  { rewrite Ep, Eb in Lo. replace ((y ++ a) ++ b ++ v) with (y ++ (a ++ b) ++ v) in Lo by (rewrite <- !app_assoc; reflexivity). exact (low_part _ _ _ Lo). }
  assert (K : forall a' b', (exists q, a = q ++ a') -> a' <> [] -> low (a' ++ b) -> b' = b -> ~ lang true me_rest (a' ++ b')).
  { intros a' b' (q' & Ea') Na' La' ->. destruct (ends_in a' Na') as (q & c & ->). assert (Wc : is_word c = false) by (apply (Sa (y ++ q' ++ q) c); rewrite Ep, Ea', <- !app_assoc; reflexivity). rewrite <- app_assoc in *. cbn [app] in *. apply (known_ok (bs h) me_rest q c b v (z ++ T) Hc Hn Wc La' Nb). rewrite <- Eb, Eh, <- app_assoc. reflexivity. }
  destruct (me_split _ L) as (l & w & E & Ll & Lw). apply app_eq_app in E as (d & [(Ea & Ew)|(Ea & Ew)]).
  - (* the day of the week ends before the phrase *)
    destruct d as [|d0 d].
    + rewrite app_nil_r in Ea. subst l. cbn [app] in Ew. subst w. apply low_app in Lab as [La _]. destruct (lead_part a La Na Ll) as (k & W). apply (Nw y a [] (tx ++ T) k Ep Na eq_refl). rewrite app_nil_r. exact W.
    + apply (K (d0 :: d) b); [exists l; exact Ea|discriminate| |reflexivity|rewrite <- Ew; exact Lw]. rewrite Ea, <- app_assoc in Lab. apply low_app in Lab as [_ Lab]. exact Lab.
  - destruct d as [|d0 d].
    { rewrite app_nil_r in Ea. subst l. apply low_app in Lab as [La _]. destruct (lead_part a La Na Ll) as (k & W). apply (Nw y a [] (tx ++ T) k Ep Na eq_refl). rewrite app_nil_r. exact W. }
    set (dd := d0 :: d) in *. assert (Lal : low l) by (rewrite Ew, app_assoc, <- Ea in Lab; apply low_app in Lab as [Lab _]; exact Lab).
    destruct (lead_part l Lal) as (k & W); [rewrite Ea; intros X; apply app_eq_nil in X as [X _]; congruence|exact Ll|].
    (* l = a ++ dd, and dd is a beginning of the phrase or reaches beyond it *)
    rewrite Ew, <- app_assoc in Eb. apply (Nw y a dd (w ++ v) k Ep Na Eb). rewrite <- Ea. exact W.
Qed.

(** ** C98 *)
Theorem C98_month_days_stand : forall e g text t us rs pre tx x T, sane e -> real_instant t us -> Z.of_nat (List.length text) < 2 ^ 32 ->
  plain_month_day tx x -> next_word T -> to_lower text = pre ++ tx ++ T -> (forall a c, pre = a ++ [c] -> is_word c = false) -> no_weekday_before pre (tx ++ T) -> 1 <= md_day x <= 31 ->
  x_res (execute e middle_endian g text (ptime_of t us)) = Ret rs ->
  exists r, In r rs /\ stands r pre tx /\ month_day_said t x r.
Proof.
  intros e g text t us rs pre tx x T He H Hn P NW Et Sa Nw Hd X.
  assert (L : low (pre ++ tx ++ T)) by (rewrite <- Et; apply low_to_lower). pose proof L as L'. apply low_app in L' as [_ L']. apply low_app in L' as [Lx LT].
  destruct (found_at e middle_endian middle_endian_re (ptime_of t us) text g rs pre (tx ++ T) He in_middle_endian locates_middle_endian middle_endian_compile Hn Et) as (k & m & g0 & g1 & res & post & A1 & A2 & A3 & A4 & A5 & A6 & A7 & A8 & A9 & A10).
  - intros k _. destruct (plain_taken (lastc (skipn k pre) None) tx x T (lastc_skipn_word _ _ Sa) P LT NW) as (o1 & cs & p & K & _). apply rm_sound in K as (s' & M & _). exists s'. exact M.
  - exact (none_reach pre tx x T P Nw Sa L).
  - exact X.
  - destruct (plain_taken (lastc (skipn k pre) None) tx x T (lastc_skipn_word _ _ Sa) P LT NW) as (o1 & cs & p & K & O & G & Ep & Mw & Dw & Rd & Ex & Tm).
    unfold takes in K. rewrite K in A5. apply RegexFacts.some_inj in A5. injection A5 as _ Ep' Ec. subst post. apply app_inv_tail in A4.
    specialize (G (m_pos m)). rewrite A4, Ec in G. replace {| m_pos := m_pos m; m_str := m_str m; m_caps := m_caps m |} with m in G by (destruct m; reflexivity).
    rewrite <- Ep in Lx. destruct (month_table _ _ Mw) as [_ Bm]. change (p_extract middle_endian) with (pure_extract middle_endian_extract) in A6. unfold pure_extract in A6. apply (f_equal snd) in A6. cbn [snd] in A6.
    destruct (middle_endian_known e g0 (skipn k (to_lower text)) m p t us (Z.of_nat (List.length pre)) (md_month x) (md_day x) H Lx O G Rd Tm Bm Hd) as [Kn _]. destruct (Kn _ A6) as (y & Ym & Er). rewrite Ex in Ym.
    exists (res_copy res). split; [apply A9; rewrite Er; apply possible_me; lia|]. split; [split; [exact A7|rewrite A4; exact A8]|]. apply copy_said. rewrite Er. rewrite <- Ex at 1. apply me_said. rewrite Ex. exact Ym.
Qed.
Print Assumptions C98_month_days_stand.

(** a simple way to meet [no_weekday_before]: no day of the week is named before the phrase, and the phrase begins with the month *)
Definition weekday_stems : list string := ["sun"; "mon"; "tue"; "wed"; "thu"; "fri"; "sat"].
Definition month_stems : list string := ["jan"; "feb"; "mar"; "apr"; "may"; "jun"; "jul"; "aug"; "sep"; "oct"; "nov"; "dec"].
Lemma month_stem mw mo : month_word mw mo -> In (firstn 3 mw) (map bs month_stems).
Proof.
  intros (s & Mw). assert (F : forallb (fun x => let ok w := existsb (fun h => if list_eq_dec ascii_dec (bs h) (firstn 3 w) then true else false) month_stems in ok (bs (fst x)) && ok (bs (fst x) ++ bs ".")) (month_names ++ month_short_names) = true) by (vm_compute; reflexivity).
  assert (K : forall w, existsb (fun h => if list_eq_dec ascii_dec (bs h) (firstn 3 w) then true else false) month_stems = true -> In (firstn 3 w) (map bs month_stems)).
  { intros w Q. apply existsb_exists in Q as (h & Ih & E). destruct (list_eq_dec ascii_dec (bs h) (firstn 3 w)) as [Eh|]; [|discriminate]. rewrite <- Eh. apply in_map. exact Ih. }
  rewrite forallb_forall in F. apply K. destruct Mw as [[I ->]|[I [-> | ->]]]; specialize (F (s, mo) ltac:(apply in_or_app; auto)); apply andb_prop in F as [F1 F2]; assumption.
Qed.
Lemma no_stem_before pre tx x T : plain_month_day tx x -> md_weekday x = None -> (forall a c, pre = a ++ [c] -> is_word c = false) ->
  (forall s, In s weekday_stems -> ~ occurs (bs s) pre) -> no_weekday_before pre (tx ++ T).
Proof.
  intros P Hw Sa Ns y a b v k Ep Na Eb (on & d & sp & c & sp' & E & On & (s & Is & ->) & Bs & Hc & Bs').
  assert (Q : exists st z, In st weekday_stems /\ bs s = bs st ++ z /\ Forall (fun c => is_word c = true) (bs s)).
  { clear - Is. pose proof (forallb_forall (fun x => existsb (fun st => if list_eq_dec ascii_dec (bs st) (firstn 3 (bs (fst x))) then true else false) weekday_stems && forallb is_word (bs (fst x))) weekday_words) as [F _].
    specialize (F ltac:(vm_compute; reflexivity) _ Is). apply andb_prop in F as [F1 F2]. cbn [fst] in *. apply existsb_exists in F1 as (st & I1 & I2). destruct (list_eq_dec ascii_dec (bs st) (firstn 3 (bs s))) as [Q|]; [|discriminate].
    exists st, (skipn 3 (bs s)). split; [exact I1|]. split; [rewrite Q, firstn_skipn; reflexivity|]. apply Forall_forall. rewrite forallb_forall in F2. exact F2. }
  destruct Q as (st & z & Ist & Es & Ws). destruct (ends_in a Na) as (a' & c0 & ->).
  assert (Wc : is_word c0 = false) by (apply (Sa (y ++ a') c0); rewrite Ep, <- app_assoc; reflexivity).
  assert (Hd : exists h w, In h (map bs month_stems) /\ List.length h = 3%nat /\ Forall (fun c => is_space c = false) h /\ tx ++ T = h ++ w).
  { destruct P as (l & mw & sep & dw & sp0 & rg & yr & -> & Pl & Mw & _). rewrite Hw in Pl. cbn in Pl. subst l. pose proof (month_stem _ _ Mw) as I. exists (firstn 3 mw). eexists. split; [exact I|].
    split; [|split; [|cbn [app]; rewrite <- (firstn_skipn 3 mw) at 1; rewrite <- !app_assoc; reflexivity]]; clear - I; revert I; generalize (firstn 3 mw) as q; intros q I; cbn in I; decompose [or] I; try contradiction; subst q; repeat constructor. }
  destruct Hd as (h & w & Ih & Lh & Bh & Eh).
  (* the name of the day does not begin the phrase *)
  assert (Nb : forall u, tx ++ T <> bs st ++ u).
  { intros u Q. rewrite Eh in Q. assert (Ls : List.length h = List.length (bs st)) by (rewrite Lh; clear - Ist; cbn in Ist; decompose [or] Ist; try contradiction; subst; reflexivity).
    destruct (same_place _ _ _ _ Ls Q) as [E1 _]. rewrite E1 in Ih. clear - Ih Ist. cbn in Ist. decompose [or] Ist; try contradiction; subst; cbn in Ih; decompose [or] Ih; try contradiction; discriminate. }
  assert (Nd : forall u, b <> bs s ++ u) by (intros u ->; apply (Nb (z ++ u ++ v)); rewrite Eb, Es, <- !app_assoc; reflexivity).
  apply app_eq_app in E as (f & [(Ea & Ef)|(Ea & Ef)]).
  - apply app_eq_app in Ef as (f' & [(Ed & Er)|(Ed & Er)]).
    + destruct f as [|f0 f]; [apply (Nd (sp ++ c ++ sp')); cbn in Ed; subst f'; exact Er|].
      destruct (exists_last (l := f0 :: f) ltac:(discriminate)) as (f1 & f2 & Ef). rewrite Ef, app_assoc in Ea. apply app_inj_tail in Ea as [_ <-].
      rewrite Ed, Ef in Ws. apply Forall_app in Ws as [Ws _]. apply Forall_app in Ws as [_ Ws]. inversion Ws; congruence.
    + apply (Ns st Ist). exists (y ++ on), (z ++ f'). rewrite Ep, Ea, Ed, Es, <- !app_assoc. reflexivity.
  - destruct f as [|f0 f]; [exact (Nd _ Ef)|].
    destruct On as [->|(so & -> & Bo)]; [destruct a'; discriminate|].
    assert (Bf : is_space f0 = true).
    { assert (K : exists a2, a' ++ [c0] = bs "on" ++ a2).
      { destruct a' as [|x0 [|x1 a']]; cbn in Ea; injection Ea as; subst; try discriminate; [..|exists (a' ++ [c0]); reflexivity]. }
      destruct K as (a2 & K). rewrite K, <- app_assoc in Ea. apply app_inv_head in Ea. rewrite Ea in Bo. apply Forall_app in Bo as [_ Bo]. inversion Bo; assumption. }
    rewrite Ef in Eb. rewrite Eh in Eb. destruct h as [|h0 h]; [discriminate|]. cbn in Eb. injection Eb as -> _. inversion Bh; congruence.
Qed.

(** the hypotheses are met: another month is named before the phrase, and the program says where the date stands *)
Lemma plain_case mw mo dd : month_word mw mo -> digits dd -> (1 <= List.length dd <= 2)%nat -> plain_month_day (mw ++ bs " " ++ dd ++ bs " ") (MonthDay None mo (decimal dd) None None).
Proof.
  intros M D L. exists [], mw, (bs " "), dd, (bs " "), [], []. cbn [md_weekday md_month md_day md_to md_year]. rewrite !app_nil_r. split; [reflexivity|]. split; [reflexivity|]. split; [exact M|].
  split; [rewrite <- (app_nil_r dd) at 1; apply (pd_digits (bs " ") dd []); [right; right; exists [], (bs " "); split; [reflexivity|]; split; [auto|repeat constructor]|exact D|exact L|left; reflexivity]|].
  split; [repeat constructor|]. split; [discriminate|]. split; reflexivity.
Qed.
Example C98_case : let t := Moment (Cal 2024 2 27) 9 15 0 in let text := bs "In May we spoke; on March 5 at the fair" in let x := MonthDay None 3 5 None None in
  real_instant t 3 /\ plain_month_day (bs "march 5 ") x /\ next_word (bs "at the fair") /\ to_lower text = bs "in may we spoke; on " ++ bs "march 5 " ++ bs "at the fair" /\
  no_weekday_before (bs "in may we spoke; on ") (bs "march 5 " ++ bs "at the fair") /\
  exists r, x_res (execute strict_env middle_endian gwords_init text (ptime_of t 3)) = Ret [r] /\ r_index r = 20 /\ r_text r = bs "march 5 " /\ certain Month 3 (r_start r) /\ certain MDay 5 (r_start r) /\ certain Year 2024 (r_start r).
Proof.
  cbv zeta. split; [inst|].
  assert (P : plain_month_day (bs "march 5 ") (MonthDay None 3 5 None None)) by (apply (plain_case (bs "march") 3 (bs "5")); [exists "march"; left; split; [cbn; tauto|reflexivity]|repeat constructor|cbn; lia]).
  split; [exact P|]. split; [|split; [reflexivity|split]].
  - left. exists "a"%char, (bs "t the fair"). split; [reflexivity|]. split; [reflexivity|]. split; [reflexivity|]. intros w I (v & Q). cbn in I. decompose [or] I; subst; try contradiction; discriminate Q.
  - apply (no_stem_before _ _ _ _ P eq_refl).
    + intros a c E. change (bs "in may we spoke; on ") with (bs "in may we spoke; on" ++ bs " ") in E. apply app_inj_tail in E as [_ <-]. reflexivity.
    + intros s I. apply not_occurs. cbn in I. decompose [or] I; subst; try contradiction; reflexivity.
  - eexists. split; [vm_compute; reflexivity|]. split; [reflexivity|]. split; [reflexivity|]. repeat split.
Qed.

(** ** C99: the answer of the program *)
(** what it prints for such a date in the year [y]: midnight of the day; for a range also the last minute of the last day *)
Definition month_day_answer (x : month_day) (y : Z) : string :=
  let first := Spec.written (Moment (Cal y (md_month x) (md_day x)) 0 0 0) in
  match md_to x with None => first | Some (d, _) => (first ++ " - " ++ Spec.written (Moment (Cal y (md_month x) (decimal d)) 23 59 0))%string end.
Definition month_day_exists (x : month_day) (y : Z) : Prop :=
  real_date (Cal y (md_month x) (md_day x)) /\ match md_to x with None => True | Some (d, _) => real_date (Cal y (md_month x) (decimal d)) end.
Lemma said_answer t x r : month_day_said t x r -> (forall d b, md_to x = Some (d, b) -> b = true) -> tag_is TExtractTZ r = false -> exists y, year_meant t x y /\ (month_day_exists x y -> toDate r = Ret (bs (month_day_answer x y))).
Proof.
  intros (y & Ym & (D1 & D2 & D3 & _) & U & En) Hb Tz. exists y. split; [exact Ym|]. intros [R1 R2].
  assert (V : forall f, In f [Hour; Min; Sec; TzOffset] -> api_get f (r_start r) = 0) by (intros f I; unfold untouched in U; rewrite Forall_forall in U; apply U; exact I).
  assert (Ds : denotes (r_start r) (Moment (Cal y (md_month x) (md_day x)) 0 0 0)).
  { repeat split; [exact (certain_value _ _ _ D3)|exact (certain_value _ _ _ D1)|exact (certain_value _ _ _ D2)|apply (V Hour)|apply (V Min)|apply (V Sec)]; cbn; tauto. }
  unfold month_day_answer. destruct (md_to x) as [[d b]|] eqn:Q.
  - rewrite (Hb d b eq_refl) in En. destruct En as (E1 & (E2 & E3 & E4 & _) & E5 & E6 & E7).
    assert (V' : forall f, In f [Sec; TzOffset] -> api_get f (r_endc r) = 0) by (intros f I; unfold untouched in E7; rewrite Forall_forall in E7; apply E7; exact I).
    apply toDate_range; auto; [apply midnight_real; exact R1| |].
    + repeat split; [exact (certain_value _ _ _ E4)|exact (certain_value _ _ _ E2)|exact (certain_value _ _ _ E3)|exact (certain_value _ _ _ E5)|exact (certain_value _ _ _ E6)|apply (V' Sec)]; cbn; tauto.
    + repeat split; try apply R2; cbn; lia.
  - apply toDate_start; auto. apply midnight_real. exact R1.
Qed.
Lemma plain_range tx x : plain_month_day tx x -> forall d b, md_to x = Some (d, b) -> b = true.
Proof. intros (l & mw & sep & dw & sp & rg & yr & _ & _ & _ & _ & _ & _ & Pt & _) d b E. rewrite E in Pt. apply Pt. Qed.
Lemma in_parsers_me : In middle_endian parsers. Proof. cbn; tauto. Qed.
Lemma untimed_me e text ref l r : sane e -> alone e middle_endian text ref = Ret l -> In r l -> tag_is TTimeExpression r = false.
Proof.
  intros He X I. destruct (tag_is TTimeExpression r) eqn:T; [|reflexivity]. exfalso.
  assert (It : In (middle_endian, Some TMiddleEndian) own_tag) by (cbn; tauto). pose proof (C73_only_own_tag e middle_endian _ gwords_init text ref l r TTimeExpression He It X I T) as Q. discriminate Q.
Qed.
Theorem C99_month_day_answer : forall e sortf text t us pre tx x T, sane e -> is_sort sortf -> real_instant t us -> Z.of_nat (List.length text) < 2 ^ 32 ->
  plain_month_day tx x -> next_word T -> to_lower text = pre ++ tx ++ T -> (forall a c, pre = a ++ [c] -> is_word c = false) -> no_weekday_before pre (tx ++ T) -> 1 <= md_day x <= 31 ->
  (forall q, In q parsers -> exists l, alone e q text (ptime_of t us) = Ret l /\ forall r, In r l ->
     Z.of_nat (List.length pre) <= getIndex r < Z.of_nat (List.length pre) + Z.of_nat (List.length tx) /\ (q = middle_endian \/ textLength r < Z.of_nat (List.length tx))) ->
  exists y, year_meant t x y /\ (month_day_exists x y -> main e sortf gwords_init text (ptime_of t us) = Ret (line (bs (month_day_answer x y)))).
Proof.
  intros e sortf text t us pre tx x T He Hs H Hn P NW Et Sa Nw Hd Al.
  destruct (Al middle_endian in_parsers_me) as (l & El & Bl). destruct (C98_month_days_stand e gwords_init text t us l pre tx x T He H Hn P NW Et Sa Nw Hd El) as (res & I & (Ix & Tx) & Sd).
  destruct (said_answer t x res Sd (plain_range tx x P)) as (y & Ym & Sy).
  { apply (C73_no_refiner_tag e middle_endian gwords_init text (ptime_of t us) l res TExtractTZ He (in_all _ in_parsers_me) El I). left. reflexivity. }
  exists y. split; [exact Ym|]. intros Ex.
  assert (A : exists rs, all_alone e parsers text (ptime_of t us) = Ret rs).
  { assert (Q : exists rss, Forall2 (fun p l => alone e p text (ptime_of t us) = Ret l) parsers rss).
    { revert Al. clear. generalize parsers as ps. induction ps as [|q ps IH]; intros Al; [exists []; constructor|]. destruct (Al q (or_introl eq_refl)) as (l & El & _).
      destruct IH as [rss F]; [intros q' I'; apply Al; right; exact I'|]. exists (l :: rss). constructor; assumption. }
    destruct Q as [rss F]. exists (List.concat rss). apply all_alone_ret. eauto. }
  destruct A as [rs A].
  assert (Ir : In res rs) by (apply (all_alone_in _ _ _ _ _ A); exists middle_endian, l; split; [exact in_parsers_me|split; [exact El|exact I]]).
  assert (Lr : textLength res = Z.of_nat (List.length tx)) by (unfold textLength; rewrite Tx; reflexivity).
  rewrite (main_dominant e sortf text (ptime_of t us) rs res He Hs A Ir (untimed_me e text _ l res He El I)).
  - unfold shown. rewrite (Sy Ex). reflexivity.
  - intros r' Ir'. apply (all_alone_in _ _ _ _ _ A) in Ir' as (q & lq & Iq & Eq & Il). destruct (Al q Iq) as (l' & El' & Bq). rewrite El' in Eq. apply RelativeFacts.ret_inj in Eq. subst l'.
    destruct (Bq r' Il) as [B1 B2]. rewrite Ix, Lr.
    destruct B2 as [->|Q]; [left|right; clear - B1 Q; lia]. rewrite El in El'. apply RelativeFacts.ret_inj in El'. subst lq.
    pose proof (result_text _ _ _ _ _ _ _ He (in_all _ in_parsers_me) El I) as T1. pose proof (result_text _ _ _ _ _ _ _ He (in_all _ in_parsers_me) El Il) as T2.
    apply (in_order_unique (Z.of_nat (List.length text)) l).
    + apply (C13_results_in_order _ _ _ _ _ _ He (in_all _ in_parsers_me) Hn El).
    + exact I.
    + exact Il.
    + unfold textLength. destruct (r_text res); [congruence|cbn [List.length]; clear; lia].
    + unfold textLength. destruct (r_text r'); [congruence|cbn [List.length]; clear; lia].
    + rewrite Ix, Lr. exact B1.
Qed.
Print Assumptions C99_month_day_answer.
Example C99_case : let t := Moment (Cal 2024 2 27) 9 15 0 in let text := bs "The fair on March 5 2012 was fun" in
  inside_only strict_env text (ptime_of t 3) middle_endian (bs "the fair on ") (bs "march 5 2012 ") = true /\
  main strict_env sort_stable gwords_init text (ptime_of t 3) = Ret (line (bs "2012-Mar-05 00:00:00")) /\
  main (benign_env "x"%char) sort_stable gwords_init (bs "Away March 12 to 15 for fun") (ptime_of t 3) = Ret (line (bs "2024-Mar-12 00:00:00 - 2024-Mar-15 23:59:00")) /\
  inside_only (benign_env "x"%char) (bs "Away March 12 to 15 for fun") (ptime_of t 3) middle_endian (bs "away ") (bs "march 12 to 15 ") = true.
Proof. cbv zeta. repeat split; vm_compute; reflexivity. Qed.
