(** * MiddleRuns: running the month-day pattern on plainly written dates *)
From Verif Require Import Base Regex RegexFacts Symbolic Open ShapeRun Segments Components Utils Spec View ParserSpec PhraseSpec ClockSpec ParserRe AgoFacts RelativeRuns MiddleFacts MiddleMatch MiddleMean MiddleFamily MiddleSpec.
Open Scope string_scope.
Open Scope list_scope.
Open Scope nat_scope.

Definition lit (w : bytes) : list sitem := cased w w.
Definition dig (w : bytes) : list sitem := map (fun c => SC c "0"%char) w.
Definition okl (l : list sitem) : Prop := Forall (item_ok' true middle_endian_re) l.
Lemma dig_text w : items_text (dig w) = w.
Proof. unfold dig. induction w as [|c w IH]; [reflexivity|]. cbn in *. f_equal. exact IH. Qed.
Lemma dig_ok w : digits w -> okl (dig w).
Proof. unfold dig. induction 1 as [|c w Hc D IH]; constructor; [apply (char_ok _ _ _ _ _ md_digit Hc)|exact IH]. Qed.
Lemma spaced_ok w : spaced w -> okl (spread w " ").
Proof. intros H. apply (spread_ok _ _ _ _ md_blank). revert H. apply Forall_impl. intros c ->. reflexivity. Qed.
Lemma okl_app a b : okl a -> okl b -> okl (a ++ b).
Proof. intros A B. apply Forall_app. auto. Qed.
Lemma okl_lit w : okl (lit w). Proof. apply self_ok. Qed.
Lemma okl_nil : okl []. Proof. constructor. Qed.
Definition part (f : family) (w : bytes) (segs : list (list sitem)) (b : list (nat * list nat)) : Prop :=
  In (map (map shape_of) segs, b) f /\ Forall okl segs /\ items_text (List.concat segs) = w.
Lemma takes_prev ic r o w T o' c : takes ic r o w T o' c -> o' = lastc w o.
Proof.
  intros H. apply rm_sound in H as (s' & M & E). injection E as ->. destruct (mt_word _ _ _ _ M) as (v & cs & E & P & _). cbn [s_rest s_prev] in *. apply app_inv_tail in E. subst v. exact P.
Qed.
Lemma part_seg f w segs b p tl r o T : In r [q_lead; q_month; q_day; q_to; q_year] -> forallb (seg_on true tl r p []) f = true -> part f w segs b -> tail_ok tl T -> prev_ok p o ->
  takes true r o w T (lastc w o) (caps_of segs b).
Proof.
  intros Hr H (I & F & Tx) HT Ho. rewrite forallb_forall in H. specialize (H _ I).
  assert (G : okl (List.concat segs)). { clear - F. induction F; cbn; [constructor|]. apply okl_app; assumption. }
  destruct (seg_ok true middle_endian_re tl r p [] segs b o T (q_part r Hr) H G okl_nil HT Ho) as (o' & q & A & B). rewrite Tx in A. cbn [items_text map List.concat app] in A. rewrite <- (takes_prev _ _ _ _ _ _ _ A). exact A.
Qed.
Lemma lit_shapes w : map shape_of (lit w) = sh_word w.
Proof. unfold lit, sh_word. induction w as [|c w IH]; [reflexivity|]. cbn. f_equal. exact IH. Qed.
Lemma part_two f w segs b p tl r o T : In r [q_lead; q_month; q_day; q_to; q_year] -> seg_two tl r p f = true -> part f w segs b -> closely tl T -> prev_ok p o ->
  takes true r o w T (lastc w o) (caps_of segs b).
Proof.
  intros Hr H Pt HT Ho. apply andb_prop in H as [H1 H2]. destruct HT as [HT|(u & s & T' & Is & -> & HT)]; [exact (part_seg f w segs b p tl r o T Hr H1 Pt HT Ho)|].
  rewrite forallb_forall in H2. specialize (H2 _ Is). cbn [fst snd] in H2. destruct Pt as (I & F & Tx). rewrite forallb_forall in H2. specialize (H2 _ I).
  assert (G : okl (List.concat segs)). { clear - F. induction F; cbn; [constructor|]. apply okl_app; assumption. }
  rewrite <- lit_shapes in H2. destruct (seg_ok true middle_endian_re s r p (lit (bs u)) segs b o T' (q_part r Hr) H2 G (okl_lit _) HT Ho) as (o' & q & A & B). rewrite Tx in A. unfold lit in A. rewrite self_text in A. cbn [app] in A. rewrite <- (takes_prev _ _ _ _ _ _ _ A). exact A.
Qed.
Ltac in_family := apply member_in; vm_compute; reflexivity.
Ltac one_piece := first [apply okl_nil | apply okl_lit | apply spaced_ok; assumption | apply dig_ok; assumption].
Ltac all_pieces := repeat (apply Forall_cons; [one_piece|]); apply Forall_nil.
Ltac text_of := cbn [List.concat]; rewrite ?items_text_app, ?app_nil_r; cbn [items_text map List.concat]; unfold lit; rewrite ?self_text, ?dig_text, ?spread_text; try reflexivity.
Lemma dig_shapes w : map shape_of (dig w) = sh_digits (List.length w).
Proof. unfold dig, sh_digits. induction w as [|c w IH]; [reflexivity|]. cbn. f_equal. exact IH. Qed.
Ltac shapes := cbn [map]; rewrite ?dig_shapes; repeat match goal with
  | |- context [spread ?sp " "] => is_var sp; destruct sp; cbn [spread map shape_of] end.
Ltac is_part := cbn [In]; tauto.
Ltac cases_in I := cbn in I; decompose [or] I; try contradiction; match goal with E : (_, _) = (_, _) |- _ => injection E as <- <- end.

(** the lead *)
Lemma month_first mw mo : month_word mw mo -> exists c v, mw = c :: v /\ t_next month_start c = true.
Proof. intros (s & [[I ->]|[I [-> | ->]]]); cases_in I; eexists _, _; split; reflexivity. Qed.
Lemma lead_taken o0 l o mw mo T : word_opt o0 = false -> plain_weekday l o -> month_word mw mo -> exists wdw,
  takes true q_lead o0 l (mw ++ T) (lastc l o0) (match o with Some _ => [(2, wdw)] | None => [] end ++ [(1, [])]) /\
  match o with None => wdw = [] | Some k => weekday_word wdw k /\ wdw <> [] end.
Proof.
  intros Ho P M. destruct o as [k|]; cbn [plain_weekday] in P.
  - destruct P as (on & d & c & sp & -> & On & W & C & Sp & Ne). exists d. pose proof W as (s & I & ->). split; [|split; [exact W|cases_in I; discriminate]].
    destruct (month_first _ _ M) as (c0 & v & -> & Hc).
    assert (Pt : part f_lead (on ++ bs s ++ c ++ sp) [lit on; lit (bs s); lit c; spread sp " "] [(2, [1]); (1, [])]).
    { split; [|split; [all_pieces|text_of]]. destruct On as [-> | ->], C as [-> | ->]; try (destruct sp as [|? ?]; [congruence|]); shapes; cases_in I; in_family. }
    assert (K : takes true q_lead o0 (on ++ bs s ++ c ++ sp) ((c0 :: v) ++ T) (lastc (on ++ bs s ++ c ++ sp) o0) (caps_of [lit on; lit (bs s); lit c; spread sp " "] [(2, [1]); (1, [])])).
    { destruct o0 as [x|].
      - exact (part_seg f_lead _ _ _ (PWord false) month_start q_lead (Some x) ((c0 :: v) ++ T) ltac:(is_part) f_lead_ok' Pt Hc (ex_intro _ x (conj eq_refl Ho))).
      - exact (part_seg f_lead _ _ _ PStart month_start q_lead None ((c0 :: v) ++ T) ltac:(is_part) f_lead_ok Pt Hc eq_refl). } unfold caps_of in K. cbn [map fst snd nth List.concat] in K. unfold lit in K at 1. rewrite self_text, app_nil_r in K. exact K.
  - subst l. exists []. split; [|reflexivity]. change (@nil ascii) with (@nil ascii ++ []) at 1. change ([] ++ [(1, [])]) with ((@nil (nat * bytes)) ++ [(1, @nil ascii)]). apply (takes_cat true (WB 1) (ROpt true me_lead) o0 [] [] (mw ++ T) o0 o0).
    + destruct (month_first _ _ M) as (c0 & v & -> & Hc). unfold takes, WB. cbn [app rm].
      assert (Wc : is_word c0 = true) by (pose proof (forall_ascii (fun c => implb (t_next month_start c) (is_word c)) ltac:(vm_compute; reflexivity) c0) as Q; cbv beta in Q; rewrite Hc in Q; exact Q).
      rewrite (consumed_eq _ _ []) by reflexivity. unfold at_wb. cbn. rewrite Wc. unfold word_opt in Ho |- *. rewrite Ho. reflexivity.
    + unfold takes. cbn [app]. destruct M as (s & [[I ->]|[I [-> | ->]]]); cases_in I; vm_compute; reflexivity.
Qed.

(** the month and the separator *)
Lemma sep_pieces sep : plain_sep sep -> exists s1 s2, okl s1 /\ okl s2 /\ items_text s1 ++ items_text s2 = sep /\ In (map shape_of s1, map shape_of s2) seps_all /\ (sep <> [] -> In (map shape_of s1, map shape_of s2) f_seps).
Proof.
  intros [->|[->|(c & sp & -> & C & Sp)]].
  - exists (lit (bs "-")), []. repeat (split; [first [apply okl_nil|apply okl_lit|reflexivity|cbn; tauto]|]). cbn; tauto.
  - exists (lit (bs "/")), []. repeat (split; [first [apply okl_nil|apply okl_lit|reflexivity|cbn; tauto]|]). cbn; tauto.
  - exists (lit c), (spread sp " "). split; [apply okl_lit|]. split; [apply spaced_ok; exact Sp|]. unfold lit. split; [rewrite self_text, spread_text; reflexivity|].
    destruct C as [-> | ->], sp; cbn; split; try tauto; try (intros Q; congruence).
Qed.
Lemma month_pieces mw mo : month_word mw mo -> exists m, In m months_all /\ mw = bs m.
Proof.
  intros (s & [[I ->]|[I [-> | ->]]]).
  - exists s. split; [|reflexivity]. apply in_or_app. left. apply (in_map fst) in I. exact I.
  - exists s. split; [|reflexivity]. apply in_or_app. right. apply in_or_app. left. apply (in_map fst) in I. exact I.
  - exists (s ++ ".")%string. split; [|cases_in I; reflexivity]. apply in_or_app. right. apply in_or_app. right. apply (in_map (fun x => (fst x ++ ".")%string)) in I. exact I.
Qed.
Lemma month_part mw mo sep seps s1 s2 : month_word mw mo -> okl s1 -> okl s2 -> items_text s1 ++ items_text s2 = sep -> In (map shape_of s1, map shape_of s2) seps ->
  part (f_month seps) (mw ++ sep) [lit mw; s1; s2] [(3, [0])].
Proof.
  intros M K1 K2 Tx I. destruct (month_pieces _ _ M) as (m & Im & ->). split; [|split].
  - cbn [map]. rewrite lit_shapes. apply in_flat_map. exists m. split; [exact Im|]. apply (in_map (fun s => ([sh_word (bs m); fst s; snd s], [(3, [0])]))) in I. exact I.
  - repeat (apply Forall_cons; [first [apply okl_lit|assumption]|]). constructor.
  - cbn [List.concat]. rewrite !items_text_app, app_nil_r. unfold lit. rewrite self_text, Tx. reflexivity.
Qed.
Lemma day_first sep dw d : plain_day sep dw d -> plain_sep sep /\ exists c v, dw = c :: v /\ (is_digit c = true \/ (sep <> [] /\ t_next ordinal_next c = true)).
Proof.
  intros [sep' dd s P D L S|sep' w n P N I|sep' c w n P N C I|sep' c P N C]; (split; [exact P|]).
  - destruct dd as [|c dd]; [cbn in L; lia|]. inversion D; subst. exists c, (dd ++ s). auto.
  - cases_in I; eexists _, _; (split; [reflexivity|right; split; [exact N|reflexivity]]).
  - eexists _, _; (split; [reflexivity|right; split; [exact N|reflexivity]]).
  - eexists _, _; (split; [reflexivity|right; split; [exact N|reflexivity]]).
Qed.
Lemma month_taken o mw mo sep dw d T : month_word mw mo -> plain_day sep dw d -> takes true q_month o (mw ++ sep) (dw ++ T) (lastc (mw ++ sep) o) [(3, mw)].
Proof.
  intros M P. destruct (day_first _ _ _ P) as (Ps & c & v & -> & Hc). destruct (sep_pieces sep Ps) as (s1 & s2 & K1 & K2 & Tx & I1 & I2).
  assert (Ec : caps_of [lit mw; s1; s2] [(3, [0])] = [(3, mw)]) by (unfold caps_of; cbn [map fst snd nth List.concat]; unfold lit; rewrite self_text, app_nil_r; reflexivity). rewrite <- Ec.
  destruct Hc as [Hc|[Ns Hc]].
  - apply (part_seg (f_month seps_all) _ _ _ PAny digit_next q_month); [is_part|exact f_month_digit_ok|apply (month_part mw mo); assumption|exact Hc|exact I].
  - apply (part_seg (f_month f_seps) _ _ _ PAny ordinal_next q_month); [is_part|exact f_month_word_ok|apply (month_part mw mo); auto|exact Hc|exact I].
Qed.
(** the day *)
Definition digit_part (dw : bytes) (o : option bytes) : Prop := match o with Some dd => digits dd /\ (1 <= List.length dd <= 2) /\ exists sf, ordinal_suffix sf /\ dw = dd ++ sf | None => exists n, says_ordinal dw n end.
Lemma day_taken o sep dw d sp T : plain_day sep dw d -> spaced sp -> sp <> [] -> closely after_day T -> exists odd,
  takes true q_day o (dw ++ sp) T (lastc (dw ++ sp) o) (day_caps dw odd) /\ digit_part dw odd /\ match odd with Some dd => d = decimal dd | None => says_ordinal dw d end.
Proof.
  intros P Sp Ns HT.
  assert (W : forall w, In w ordinals_all -> dw = bs w -> takes true q_day o (dw ++ sp) T (lastc (dw ++ sp) o) (day_caps dw None)).
  { intros w I ->. assert (Ec : caps_of [lit (bs w); []; spread sp " "] [(4, [0; 1])] = day_caps (bs w) None) by (unfold caps_of; cbn [map fst snd nth List.concat]; unfold lit; rewrite self_text; cbn [items_text map List.concat]; rewrite !app_nil_r; reflexivity).
    rewrite <- Ec. apply (part_two (f_day_digits ++ f_day_words) _ _ _ PAny after_day q_day); [is_part|exact f_day_ok| |exact HT|exact Logic.I].
    split; [|split; [all_pieces|text_of]]. apply in_or_app. right. cbn [map]. rewrite lit_shapes. destruct sp; [congruence|]. apply (in_map (fun w => ([sh_word (bs w); []; sh_spaces], [(4, [0; 1])]))) in I. exact I. }
  destruct P as [sep' dd s P D L S|sep' w n P N I|sep' c w n P N C I|sep' c P N C].
  - exists (Some dd). split; [|split; [split; [exact D|split; [exact L|exists s; auto]]|reflexivity]].
    assert (Ec : caps_of [dig dd; lit s; spread sp " "] [(4, [0; 1]); (5, [0])] = day_caps (dd ++ s) (Some dd)) by (unfold caps_of; cbn [map fst snd nth List.concat]; unfold lit; rewrite self_text, dig_text, !app_nil_r; reflexivity).
    rewrite <- Ec. apply (part_two (f_day_digits ++ f_day_words) _ _ _ PAny after_day q_day); [is_part|exact f_day_ok| |exact HT|exact Logic.I].
    split; [|split; [all_pieces|text_of; rewrite <- app_assoc; reflexivity]]. clear - L S Ns. shapes; [congruence|]. revert L. generalize (List.length dd). intros n L. destruct n as [|[|[|n]]]; try lia; destruct S as [-> | [-> | [-> | [-> | ->]]]]; in_family.
  - exists None. assert (So : says_ordinal (bs w) n) by (rewrite <- (app_nil_r (bs w)); apply (so_one [] w n []); [exact I|constructor|constructor]). split; [|split; [exists n; exact So|exact So]].
    apply (W w); [|reflexivity]. apply in_or_app. left. apply (in_map fst) in I. exact I.
  - exists None. assert (So : says_ordinal (bs "twenty" ++ c :: bs w) (20 + n)).
    { rewrite <- (app_nil_r (bs w)). apply (so_twenty [] [c] w n []); [exact I|constructor|constructor; [exact C|constructor]|discriminate|constructor]. }
    split; [|split; [eexists; exact So|exact So]]. destruct C as [-> | ->].
    + apply (W ("twenty" ++ " " ++ w)%string); [|reflexivity]. apply in_or_app. right. apply in_flat_map. exists " ". split; [left; reflexivity|]. apply in_or_app. left. apply (in_map (fun w => ("twenty" ++ " " ++ fst w)%string)) in I. exact I.
    + apply (W ("twenty" ++ "-" ++ w)%string); [|reflexivity]. apply in_or_app. right. apply in_flat_map. exists "-". split; [right; left; reflexivity|]. apply in_or_app. left. apply (in_map (fun w => ("twenty" ++ "-" ++ fst w)%string)) in I. exact I.
  - exists None. assert (So : says_ordinal (bs "thirty" ++ c :: bs "first") 31).
    { change (bs "first") with (bs "first" ++ []). apply (so_thirty [] [c] []); [constructor|constructor; [exact C|constructor]|discriminate|constructor]. }
    split; [|split; [eexists; exact So|exact So]]. destruct C as [-> | ->].
    + apply (W "thirty first"); [|reflexivity]. apply in_or_app. right. apply in_flat_map. exists " ". split; [left; reflexivity|]. apply in_or_app. right. left. reflexivity.
    + apply (W "thirty-first"); [|reflexivity]. apply in_or_app. right. apply in_flat_map. exists "-". split; [right; left; reflexivity|]. apply in_or_app. right. left. reflexivity.
Qed.

(** the end of a range *)
Lemma last_space w sp o : spaced sp -> sp <> [] -> lastc (w ++ sp) o = Some " "%char.
Proof.
  intros Sp Ns. destruct (exists_last Ns) as (s & c & ->). apply Forall_app in Sp as [_ Sp]. inversion Sp; subst. unfold lastc. rewrite app_assoc, fold_left_app. reflexivity.
Qed.
Definition range_parts (rg : bytes) (o : option (bytes * bool)) (org : option (bytes * bytes * bool)) : Prop :=
  match o, org with
  | None, None => rg = []
  | Some (d, b), Some (x, d', b') => d = d' /\ b = b' /\ to_part rg (Some (d, b)) /\ x <> [] /\ (b = false -> x = d)
  | _, _ => False
  end.
Lemma spaced_blanks s : spaced s -> blanks s.
Proof. apply Forall_impl. intros c ->. reflexivity. Qed.
Lemma to_taken rg o T : plain_to rg o -> closely no_to T -> exists org,
  takes true q_to (Some " "%char) rg T (Some " "%char) (range_caps org) /\ range_parts rg o org.
Proof.
  intros P HT. destruct o as [[d b]|]; cbn [plain_to] in P.
  - destruct P as (-> & to & sp & s & sp' & -> & To & Sp & D & L & S & Sp' & Ns). exists (Some (d ++ s, d, true)). split.
    + assert (Ec : caps_of [lit to; spread sp " "; dig d; lit s; spread sp' " "] [(6, [2; 3]); (7, [2])] = range_caps (Some (d ++ s, d, true))) by (unfold caps_of; cbn [map fst snd nth List.concat]; unfold lit; rewrite self_text, dig_text, !app_nil_r; reflexivity).
      rewrite <- Ec. replace (Some " "%char) with (lastc (to ++ sp ++ d ++ s ++ sp') (Some " "%char)) at 2 by (rewrite !app_assoc; apply last_space; assumption).
      apply (part_seg f_to_day _ _ _ (PWord false) no_space q_to); [is_part|exact f_to_day_ok| | |exists " "%char; auto].
      * split; [|split; [all_pieces|text_of]]. clear - L S Ns To. destruct sp' as [|? ?]; [congruence|]. shapes; revert L; generalize (List.length d); intros n L; (destruct n as [|[|[|n]]]; try lia); destruct S as [-> | [-> | [-> | [-> | ->]]]], To as [-> | ->]; in_family.
      * destruct HT as [HT|(c & s0 & T' & Is & -> & _)]; [|cases_in Is; reflexivity]. destruct T as [|c T]; [exact HT|]. cbn in *. apply andb_prop in HT as [HT _]. exact HT.
    + split; [reflexivity|]. split; [reflexivity|]. split; [|split; [destruct d; [cbn in L; lia|discriminate]|discriminate]]. exists to, sp, (d ++ s), sp'. rewrite <- !app_assoc. split; [reflexivity|]. split; [exact To|]. split; [apply spaced_blanks; exact Sp|]. split; [apply spaced_blanks; exact Sp'|].
      split; [exact D|]. split; [exact L|]. exists s. auto.
  - subst rg. exists None. split; [|reflexivity].
    assert (Pt : part f_to_none [] [[]; []; []; []; []] []) by (split; [in_family|]; split; [all_pieces|reflexivity]).
    exact (part_two f_to_none [] _ _ (PWord false) no_to q_to (Some " "%char) T ltac:(is_part) f_to_none_ok Pt HT (ex_intro _ " "%char (conj eq_refl eq_refl))).
Qed.
(** the year *)
Definition year_parts (yr : bytes) (o : option (bytes * era)) (four : bool) : Prop :=
  year_part yr o /\ match o with None => True | Some (yy, e) => digits yy /\ (1 <= List.length yy <= 4) /\ (four = true \/ e <> NoEra) end.
Lemma comma_sep c sp : (c = [] /\ sp = [] \/ c = bs ",") -> spaced sp -> date_separator (c ++ sp).
Proof. intros C Sp. right. right. exists [], c, sp. split; [reflexivity|]. split; [constructor|]. split; [destruct C as [[-> _] | ->]; auto|apply spaced_blanks; exact Sp]. Qed.
Lemma era_cases e : e <> NoEra -> e = AD \/ e = BC \/ e = BE. Proof. destruct e; tauto. Qed.
Lemma era_part e yy c sp0 sp sp' : e <> NoEra -> digits yy -> (c = [] /\ sp0 = [] \/ c = bs ",") -> spaced sp0 -> spaced sp -> spaced sp' -> sp' <> [] ->
  List.length yy = 4 \/ e <> BE /\ 1 <= List.length yy <= 3 ->
  exists four segs b, part f_year (c ++ sp0 ++ yy ++ sp ++ era_word e ++ sp') segs b /\ caps_of segs b = (12, []) :: year_caps (Some (yy, e)) four /\
    year_parts (c ++ sp0 ++ yy ++ sp ++ era_word e ++ sp') (Some (yy, e)) four.
Proof.
  intros He D C Sp0 Sp Sp' Ns L.
  assert (Yp : year_part (c ++ sp0 ++ yy ++ sp ++ era_word e ++ sp') (Some (yy, e))).
  { exists (c ++ sp0), (yy ++ sp ++ era_word e), sp'. rewrite <- !app_assoc. split; [reflexivity|]. split; [apply comma_sep; assumption|]. split; [|split; [apply spaced_blanks; exact Sp'|exact Ns]].
    destruct L as [L|[L1 L]]; [apply wy_four; [exact D|exact L|apply spaced_blanks; exact Sp]|apply wy_era; [exact D|lia|apply spaced_blanks; exact Sp|destruct e; tauto]]. }
  destruct L as [L|[L1 L]].
  - exists true, [lit c; spread sp0 " "; dig yy; spread sp " "; lit (era_word e); spread sp' " "], [(12, []); (9, [4]); (8, [2])]. split; [|split].
    + split; [|split; [all_pieces|text_of]]. destruct sp' as [|? ?]; [congruence|]. clear - L C He. shapes; rewrite L; destruct C as [[-> C] | ->]; try discriminate C; destruct e; try congruence; in_family.
    + unfold caps_of. cbn [map fst snd nth List.concat]. unfold lit. rewrite self_text, dig_text, !app_nil_r. destruct e; try congruence; reflexivity.
    + split; [exact Yp|]. split; [exact D|]. split; [lia|auto].
  - exists false, [lit c; spread sp0 " "; dig yy; spread sp " "; lit (era_word e); spread sp' " "], [(12, []); (11, [4]); (10, [2])]. split; [|split].
    + split; [|split; [all_pieces|text_of]]. destruct sp' as [|? ?]; [congruence|]. clear - L L1 C He. shapes; revert L; generalize (List.length yy); intros n L; (destruct n as [|[|[|[|n]]]]; try lia); destruct C as [[-> C] | ->]; try discriminate C; destruct e; try congruence; in_family.
    + unfold caps_of. cbn [map fst snd nth List.concat]. unfold lit. rewrite self_text, dig_text, !app_nil_r. destruct e; try congruence; reflexivity.
    + split; [exact Yp|]. split; [exact D|]. split; [lia|auto].
Qed.
Lemma year_taken yr o T : plain_year yr o -> closely word_next T -> exists four o', takes true q_year (Some " "%char) yr T o' ((12, []) :: year_caps o four) /\ year_parts yr o four.
Proof.
  intros P HT. assert (Hp : prev_ok (PWord false) (Some " "%char)) by (exists " "%char; auto). destruct o as [[yy e]|]; cbn [plain_year] in P.
  - destruct P as (D & c & sp0 & C & Sp0 & P).
    assert (G : forall segs b, part f_year yr segs b -> takes true q_year (Some " "%char) yr T (lastc yr (Some " "%char)) (caps_of segs b)).
    { intros segs b Pt. apply (part_two f_year _ _ _ (PWord false) word_next q_year); [is_part|exact f_year_ok|exact Pt|exact HT|exact Hp]. }
    assert (E : e = NoEra \/ e <> NoEra) by (destruct e; auto; right; discriminate). destruct E as [-> | He].
    + destruct P as (L & ->). exists true, (lastc (c ++ sp0 ++ yy ++ bs " ") (Some " "%char)). split.
      * assert (Ec : caps_of [lit c; spread sp0 " "; dig yy; []; []; lit (bs " ")] [(12, []); (8, [2])] = (12, []) :: year_caps (Some (yy, NoEra)) true) by (unfold caps_of; cbn [map fst snd nth List.concat]; rewrite dig_text, app_nil_r; reflexivity).
        rewrite <- Ec. apply G. split; [|split; [all_pieces|text_of]]. shapes; rewrite L; destruct C as [[-> C] | ->]; try discriminate C; in_family.
      * split; [|split; [exact D|split; [lia|auto]]]. exists (c ++ sp0), (yy ++ [] ++ era_word NoEra), (bs " "). cbn [era_word app]. rewrite app_nil_r, <- app_assoc. split; [reflexivity|]. split; [apply comma_sep; assumption|].
        split; [rewrite <- (app_nil_r yy) at 1; apply (wy_four yy [] NoEra D L); constructor|]. split; [repeat constructor|discriminate].
    + assert (P' : (List.length yy = 4 \/ e <> BE /\ 1 <= List.length yy <= 3) /\ exists sp sp', yr = c ++ sp0 ++ yy ++ sp ++ era_word e ++ sp' /\ spaced sp /\ spaced sp' /\ sp' <> []) by (destruct e; [congruence|exact P|exact P|exact P]).
      destruct P' as (L & sp & sp' & -> & Sp & Sp' & Ns). destruct (era_part e yy c sp0 sp sp' He D C Sp0 Sp Sp' Ns L) as (four & segs & b & Pt & Ec & Yp). exists four. eexists. split; [rewrite <- Ec; apply G; exact Pt|exact Yp].
  - subst yr. exists true. eexists. split; [|split; [reflexivity|exact I]].
    assert (Pt : part f_year [] [[]; []; []; []; []; []] [(12, [])]) by (split; [in_family|]; split; [all_pieces|reflexivity]).
    exact (part_two f_year [] _ _ (PWord false) word_next q_year (Some " "%char) T ltac:(is_part) f_year_ok Pt HT Hp).
Qed.

(** ** the whole phrase *)
Lemma takes_search_open ic r w T o c : takes ic r None w T o c -> search ic r (w ++ T) = Some {| m_pos := 0; m_str := w; m_caps := c |}.
Proof.
  unfold takes, search. intros H. assert (E : forall A : Type, forall l k : list A, firstn (List.length (l ++ k) - List.length k) (l ++ k) = l).
  { intros A l k. rewrite app_length, Nat.add_sub. rewrite firstn_app, Nat.sub_diag, firstn_O, app_nil_r. apply firstn_all. }
  destruct (w ++ T) as [|x l] eqn:W; cbn [search_from]; rewrite H; cbn [s_rest s_caps]; do 2 f_equal.
  - destruct w; [reflexivity|discriminate].
  - unfold consumed. cbn [s_rest]. rewrite <- W. apply E.
Qed.
Lemma low_head c T : low (c :: T) -> lower c = c.
Proof. intros L. apply low_lower in L. cbn in L. congruence. Qed.
Lemma not_in_ok s c : lower c = c -> ~ In c (bs s) -> not_in s c = true.
Proof.
  intros L N. unfold not_in. rewrite L, Ascii.eqb_refl. cbn [andb]. apply Bool.negb_true_iff. apply Bool.not_true_iff_false. intros X. apply existsb_exists in X as (c' & I & Q). apply Ascii.eqb_eq in Q. subst c'. exact (N I).
Qed.
Definition second_fits (w : bytes) : bool :=
  existsb (fun x => let n := List.length (bs (fst x)) in (if list_eq_dec ascii_dec (bs (fst x)) (firstn n w) then true else false) && match skipn n w with c :: _ => t_next (snd x) c | [] => false end) seconds.
Lemma second_closely tl w v : second_fits w = true -> closely tl (w ++ v).
Proof.
  intros H. apply existsb_exists in H as ((u & s) & Is & H). cbn [fst snd] in H. cbv zeta in H. apply andb_prop in H as [H1 H2]. destruct (list_eq_dec ascii_dec (bs u) _) as [E|]; [|discriminate]. right.
  exists u, s, (skipn (List.length (bs u)) w ++ v). split; [exact Is|]. split; [rewrite app_assoc; f_equal; rewrite E at 1; symmetry; apply firstn_skipn|]. destruct (skipn _ w); [discriminate|]. exact H2.
Qed.
Lemma dates_fit : forallb (fun s => second_fits (bs "to " ++ bs (fst s)) && second_fits (bs "to " ++ bs (fst s) ++ bs ".")) (month_names ++ month_short_names ++ weekday_words) = true. Proof. vm_compute. reflexivity. Qed.
Lemma to_date_closely tl T : to_date T -> closely tl T.
Proof.
  intros (w & v & -> & H). rewrite app_assoc. apply second_closely. pose proof dates_fit as F. rewrite forallb_forall in F. destruct H as [(m & s & [[I ->]|[I [-> | ->]]])|(k & s & I & ->)].
  - specialize (F (s, m)). cbn [fst] in F. specialize (F ltac:(rewrite !in_app_iff; tauto)). apply andb_prop in F as [F _]. exact F.
  - specialize (F (s, m)). cbn [fst] in F. specialize (F ltac:(rewrite !in_app_iff; tauto)). apply andb_prop in F as [F _]. exact F.
  - specialize (F (s, m)). cbn [fst] in F. specialize (F ltac:(rewrite !in_app_iff; tauto)). apply andb_prop in F as [_ F]. exact F.
  - specialize (F (s, k)). cbn [fst] in F. specialize (F ltac:(rewrite !in_app_iff; tauto)). apply andb_prop in F as [F _]. exact F.
Qed.
Lemma next_tail T : low T -> next_word T -> closely word_next T.
Proof.
  intros L [(c & T' & -> & W & D & N)|Td]; [|apply to_date_closely; exact Td]. pose proof (low_head _ _ L) as Lc. destruct (in_dec ascii_dec c (bs "abpt")) as [I|I].
  - right. assert (K : forall s d, In (String c (String d ""), s) [("am", "md"); ("ad", "md"); ("bc", "ce"); ("be", "ce"); ("pm", "m"); ("to", "o")] -> forall v, T' <> d :: v).
    { intros s d Is v ->. apply (N (String c (String d ""))); [|exists v; reflexivity]. clear - Is. unfold confusing. cbn [In] in *. decompose [or] Is; try contradiction; match goal with E : (_, _) = (_, _) |- _ => injection E as -> -> _ end; tauto. }
    assert (Q : forall ds, (forall d, In d (bs ds) -> forall v, T' <> d :: v) -> tail_ok (Tail (not_in ds) true) T').
    { intros ds H. destruct T' as [|d T']; [reflexivity|]. cbn [tail_ok t_next]. apply not_in_ok; [inversion L; subst; apply (low_head d T'); assumption|]. intros Id. exact (H d Id T' eq_refl). }
    cbn in I. destruct I as [<-|[<-|[<-|[<-|[]]]]].
    + exists "a", (Tail (not_in "md") true), T'. split; [cbn; tauto|]. split; [reflexivity|]. apply Q. intros d [<-|[<-|[]]]; eapply K; cbn; tauto.
    + exists "b", (Tail (not_in "ce") true), T'. split; [cbn; tauto|]. split; [reflexivity|]. apply Q. intros d [<-|[<-|[]]]; eapply K; cbn; tauto.
    + exists "p", (Tail (not_in "m") true), T'. split; [cbn; tauto|]. split; [reflexivity|]. apply Q. intros d [<-|[]]; eapply K; cbn; tauto.
    + exists "t", (Tail (not_in "o") true), T'. split; [cbn; tauto|]. split; [reflexivity|]. apply Q. intros d [<-|[]]; eapply K; cbn; tauto.
  - left. cbn [tail_ok word_next t_next]. rewrite W, D, (not_in_ok "abpt" c Lc I). reflexivity.
Qed.
Lemma word_no_to c : t_next word_next c = true -> t_next no_to c = true /\ t_next after_day c = true.
Proof.
  intros H. pose proof (forall_ascii (fun c => implb (t_next word_next c) (t_next no_to c && t_next after_day c)) ltac:(vm_compute; reflexivity) c) as Q. cbv beta in Q. rewrite H in Q. cbn [implb] in Q. apply andb_prop in Q. exact Q.
Qed.
Lemma digit_no_to c : is_digit c = true -> t_next no_to c = true /\ t_next after_day c = true.
Proof.
  intros H. pose proof (forall_ascii (fun c => implb (is_digit c) (t_next no_to c && t_next after_day c)) ltac:(vm_compute; reflexivity) c) as Q. cbv beta in Q. rewrite H in Q. cbn [implb] in Q. apply andb_prop in Q. exact Q.
Qed.
Lemma year_tail yr o T : plain_year yr o -> closely word_next T -> closely no_to (yr ++ T) /\ closely after_day (yr ++ T).
Proof.
  intros P HT. destruct o as [[yy e]|]; cbn [plain_year] in P.
  - destruct P as (D & c & sp0 & C & _ & P). assert (X : 1 <= List.length yy /\ exists z, yr = c ++ sp0 ++ yy ++ z) by (destruct e; destruct P as (L & P); [split; [lia|eexists; exact P]|..]; destruct P as (? & ? & -> & _); (split; [lia|eexists; reflexivity])).
    destruct X as (L & z & ->). destruct C as [[-> ->] | ->]; [|split; left; reflexivity]. destruct yy as [|c yy]; [cbn in L; lia|]. inversion D; subst. cbn [app]. assert (Q : t_next no_to c = true /\ t_next after_day c = true) by (apply digit_no_to; assumption). split; left; apply Q.
  - subst yr. cbn [app]. destruct HT as [HT|HT]; [|split; right; exact HT]. destruct T as [|c T]; [discriminate HT|]. cbn [tail_ok] in HT. apply word_no_to in HT. split; left; apply HT.
Qed.
Lemma to_tail rg o U : plain_to rg o -> closely after_day U -> closely after_day (rg ++ U).
Proof.
  intros P HU. destruct o as [[d b]|]; cbn [plain_to] in P; [|subst; exact HU]. destruct P as (_ & to & sp & s & sp' & -> & [-> | ->] & _); left; reflexivity.
Qed.
Lemma plain_blanks l o : plain_weekday l o -> weekday_part l o.
Proof.
  destruct o as [k|]; cbn [plain_weekday weekday_part]; [|auto]. intros (on & d & c & sp & -> & On & W & C & Sp & _). exists on, d, [], c, sp. split; [reflexivity|].
  split; [destruct On as [-> | ->]; [auto|right; exists (bs " "); split; [reflexivity|repeat constructor]]|]. split; [exact W|]. split; [constructor|]. split; [exact C|apply spaced_blanks; exact Sp].
Qed.
Lemma plain_sep_sep s : plain_sep s -> date_separator s.
Proof. intros [->|[->|(c & sp & -> & C & Sp)]]; [left; reflexivity|right; left; reflexivity|]. right. right. exists [], c, sp. split; [reflexivity|]. split; [constructor|]. split; [exact C|apply spaced_blanks; exact Sp]. Qed.
Lemma plain_mday sep dw d : plain_day sep dw d -> mday_word dw d.
Proof.
  intros [sep' dd s P D L S|sep' w n P N I|sep' c w n P N C I|sep' c P N C]; [apply dw_digits; assumption|apply dw_ordinal..].
  - rewrite <- (app_nil_r (bs w)). apply (so_one [] w n []); [exact I|constructor|constructor].
  - rewrite <- (app_nil_r (bs w)). apply (so_twenty [] [c] w n []); [exact I|constructor|constructor; [exact C|constructor]|discriminate|constructor].
  - change (bs "first") with (bs "first" ++ []). apply (so_thirty [] [c] []); [constructor|constructor; [exact C|constructor]|discriminate|constructor].
Qed.
Lemma month_table mw mo : month_word mw mo -> tbl_get mw MONTH_CONSTANTS = mo /\ (1 <= mo <= 12)%Z.
Proof. intros (s & [[I ->]|[I [-> | ->]]]); cases_in I; (split; [vm_compute; reflexivity|lia]). Qed.
Lemma weekday_table wd k : weekday_word wd k -> tbl_get wd WEEKDAY_OFFSET = k /\ low wd.
Proof. intros (s & I & ->); cases_in I; (split; [vm_compute; reflexivity|]); match goal with |- low (bs ?w) => exact (eq_rect (to_lower (bs w)) low (low_to_lower (bs w)) (bs w) ltac:(vm_compute; reflexivity)) end. Qed.
Lemma plain_taken o0 tx x T : word_opt o0 = false -> plain_month_day tx x -> low T -> next_word T -> exists o1 cs p, takes true middle_endian_re o0 tx T o1 cs /\ me_ok p /\ (forall k, me_grps p {| m_pos := k; m_str := tx; m_caps := cs |}) /\ me_text p = tx /\
  month_word (pa_month p) (md_month x) /\ mday_word (pa_day p) (md_day x) /\ day_read p (md_day x) /\ md_of p (md_month x) (md_day x) = x /\ tbl_get (pa_month p) MONTH_CONSTANTS = md_month x.
Proof.
  destruct x as [wd mo d to yr']. unfold plain_month_day. cbn [md_weekday md_month md_day md_to md_year]. intros Ho (l & mw & sep & dw & sp & rg & yr & -> & Pl & Mw & Pd & Sp & Ns & Pr & Py) LT NW.
  pose proof (next_tail T LT NW) as HT. destruct (year_tail yr yr' T Py HT) as [Tn Ta].
  destruct (lead_taken o0 l wd mw mo (sep ++ dw ++ sp ++ rg ++ yr ++ T) Ho Pl Mw) as (wdw & Kl & Ww).
  pose proof (month_taken (lastc l o0) mw mo sep dw d (sp ++ rg ++ yr ++ T) Mw Pd) as Km.
  destruct (day_taken (lastc (mw ++ sep) (lastc l o0)) sep dw d sp (rg ++ yr ++ T) Pd Sp Ns (to_tail _ _ _ Pr Ta)) as (odd & Kd & Dp & Dv). rewrite (last_space dw sp) in Kd by assumption.
  destruct (to_taken rg to (yr ++ T) Pr Tn) as (org & Kt & Rp).
  destruct (year_taken yr yr' T Py HT) as (four & o' & Ky & Yp & Yd).
  pose proof (takes_cat true q_to q_year _ _ _ _ _ _ _ _ Kt Ky) as K. rewrite app_assoc in Kd. pose proof (takes_cat true q_day _ _ _ _ _ _ _ _ _ Kd K) as K2. clear K.
  replace (dw ++ sp ++ rg ++ yr ++ T) with (((dw ++ sp) ++ rg ++ yr) ++ T) in Km by (rewrite <- !app_assoc; reflexivity). pose proof (takes_cat true q_month _ _ _ _ _ _ _ _ _ Km K2) as K3. clear K2.
  replace (mw ++ sep ++ dw ++ sp ++ rg ++ yr ++ T) with (((mw ++ sep) ++ (dw ++ sp) ++ rg ++ yr) ++ T) in Kl by (rewrite <- !app_assoc; reflexivity).
  pose proof (takes_cat true q_lead _ _ _ _ _ _ _ _ _ Kl K3) as K4. clear K3. apply q_whole in K4.
  set (p := MeParts l wd wdw mw sep dw odd sp rg org yr yr' four). eexists _, _. exists p.
  assert (Et : me_text p = l ++ (mw ++ sep) ++ (dw ++ sp) ++ rg ++ yr) by (unfold me_text, p; cbn [pa_lead pa_month pa_sep pa_day pa_gap pa_to pa_yr]; rewrite <- !app_assoc; reflexivity).
  replace (l ++ mw ++ sep ++ dw ++ sp ++ rg ++ yr) with (l ++ (mw ++ sep) ++ (dw ++ sp) ++ rg ++ yr) by (rewrite <- !app_assoc; reflexivity).
  split; [exact K4|].
  destruct (month_table mw mo Mw) as [Tm Bm]. split; [|split; [|split; [exact Et|split; [exact Mw|split; [apply (plain_mday sep); exact Pd|split; [exact Dv|split; [|exact Tm]]]]]]].
  - unfold me_ok, p. cbn [pa_lead pa_wd pa_wdw pa_month pa_sep pa_day pa_dd pa_gap pa_to pa_rg pa_yr pa_year pa_four]. split; [apply plain_blanks; exact Pl|].
    split; [destruct wd as [k|]; [destruct Ww as [W1 W2]; destruct (weekday_table _ _ W1); auto|exact Ww]|]. split; [right; exists mo; auto|]. split; [apply plain_sep_sep; apply (day_first _ _ _ Pd)|].
    split; [exact Dp|]. split; [apply spaced_blanks; exact Sp|]. split; [exact Ns|]. split; [|split; [exact Yp|exact Yd]].
    unfold range_parts in Rp. destruct to as [[dt b]|], org as [[[y0 dt'] b']|]; try contradiction; [|exact Rp]. destruct Rp as (-> & -> & A & B & C). auto.
  - intros k0. unfold me_grps. rewrite Et. unfold grp. cbn [m_str m_caps]. split; [reflexivity|]. clear - Ww Rp Yd. unfold p. cbn [pa_lead pa_wd pa_wdw pa_month pa_sep pa_day pa_dd pa_gap pa_to pa_rg pa_yr pa_year pa_four].
    destruct wd as [k|]; [|subst wdw]; (destruct odd as [dd|]); (destruct org as [[[y d0] [|]]|]); (destruct yr' as [[yy [| | |]]|]); destruct four; try (exfalso; destruct Yd as (_ & _ & [Q|Q]); congruence); cbn; auto 12.
  - unfold md_of, p. cbn [pa_wd pa_rg pa_year]. f_equal. unfold range_parts in Rp. destruct to as [[dt b]|], org as [[[y0 dt'] b']|]; try contradiction; [|reflexivity]. destruct Rp as (-> & -> & _). reflexivity.
Qed.
Lemma plain_found tx x T : plain_month_day tx x -> low T -> next_word T -> exists m p, search true middle_endian_re (tx ++ T) = Some m /\ m_pos m = 0 /\ m_str m = tx /\ me_ok p /\ me_grps p m /\ me_text p = tx /\
  month_word (pa_month p) (md_month x) /\ mday_word (pa_day p) (md_day x) /\ day_read p (md_day x) /\ md_of p (md_month x) (md_day x) = x /\ tbl_get (pa_month p) MONTH_CONSTANTS = md_month x.
Proof.
  intros P L N. destruct (plain_taken None tx x T eq_refl P L N) as (o1 & cs & p & K & O & G & R). apply takes_search_open in K. eexists _, p. split; [exact K|]. split; [reflexivity|]. split; [reflexivity|]. split; [exact O|]. split; [apply G|exact R].
Qed.
