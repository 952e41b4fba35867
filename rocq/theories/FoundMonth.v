(** * FoundMonth: month names inside a text *)
From Verif Require Import Base Regex RegexParse Calendar Components Utils Execute RegexFacts Template Symbolic Open ShapeRun Segments Spec View ParserSpec PhraseSpec MonthSpec ParserRe MatchFacts ShapeFacts
  ResultFacts ExecuteFacts LocateFacts HistoryFacts ParserFacts NumberFacts AgoFacts RelativeRuns HolidayFacts MonthFacts FoundFacts P_MonthName.
From Coq Require Import ZifyBool ZifyNat ZifyN.
Open Scope string_scope.
Open Scope list_scope.
Open Scope nat_scope.

(** ** The pattern: its lead, the name, and the year *)
Definition mn_after : re := RCat SPs (RCat (ROpt true mn_year) (RLook false mn_look)).
Lemma mn_split : month_name_re = RCat (RGrp 1 mn_lead) (RCat (RGrp 2 mn_months) mn_after). Proof. reflexivity. Qed.

(** *** The name *)
Definition is_letter (c : ascii) : bool := existsb (Ascii.eqb c) (bs "abcdefghijklmnopqrstuvwxyz").
Definition letter_re : re := RSet false (map CChar (bs "abcdefghijklmnopqrstuvwxyz")).
Definition name_re : re := RCat (RGrp 2 mn_months) (RLook true letter_re).
Definition mn_known : list string := Eval vm_compute in
  filter (fun x => negb (String.eqb x "jun") && negb (String.eqb x "jun.")) (map fst month_names ++ map fst month_short_names ++ map (fun x => (fst x ++ ".")%string) month_short_names).
Definition mn_full : list string := Eval vm_compute in filter (fun x => negb (String.eqb x "may")) (map fst month_names).
Definition f_names (ws : list string) : family := map (fun m => ([sh_word (bs m)], [(2, [0])])) ws.
Definition no_letter (s : string) : tail := Tail (fun c => Ascii.eqb (lower c) c && negb (is_letter c) && negb (existsb (Ascii.eqb c) (bs s))) true.
Lemma names_ok : forallb (seg_on true (no_letter ".") name_re PAny []) (f_names mn_known) = true. Proof. vm_compute. reflexivity. Qed.
Lemma full_ok : forallb (seg_on true (no_letter "") name_re PAny []) (f_names mn_full) = true. Proof. vm_compute. reflexivity. Qed.

(** *** The year and what follows it *)
Definition anything : tail := Tail (fun _ => true) true.
Definition era_texts : list string := ["ad"; "bc"; "be"; " be"].
Definition f_bare : family := [([[]], [])].
Definition f_years : family :=
  flat_map (fun s => ([sh_word (bs s); sh_digits 4; []], [(3, [1])]) :: map (fun e => ([sh_word (bs s); sh_digits 4; sh_word (bs e)], [(4, [2]); (3, [1])])) era_texts) year_signs.
(** any other character behaves like one of these *)
Definition kinds : list ascii := ["a"; "b"; "c"; "d"; "e"; "x"; "!"; ","]%char.
Definition kind (c : ascii) : ascii :=
  if existsb (Ascii.eqb c) ["a"; "b"; "c"; "d"; "e"]%char then c else if is_word c then "x"%char else if existsb (Ascii.eqb c) [","; "-"]%char then ","%char else "!"%char.
Lemma kind_ok c : Ascii.eqb (lower c) c = true -> is_space c = false -> is_digit c = false -> alike true mn_after (c, kind c).
Proof.
  intros L S D. pose proof (forall_ascii (fun c => implb (Ascii.eqb (lower c) c && negb (is_space c) && negb (is_digit c)) (agree true mn_after c (kind c) && Bool.eqb (is_word c) (is_word (kind c)))) ltac:(vm_compute; reflexivity) c) as Q.
  cbv beta in Q. rewrite L, S, D in Q. cbn [andb negb implb] in Q. apply andb_prop in Q as [Q1 Q2]. apply Bool.eqb_prop in Q2. split; assumption.
Qed.
Definition words_of (f : ascii -> bool) (pre : string) : list (list (bool * ascii)) := map (fun d => sh_word (bs pre ++ [d])) (filter f kinds).
Definition after_bare : list (list (bool * ascii)) := words_of (Ascii.eqb "!") "" ++ words_of is_word " " ++ words_of (fun _ => true) "," ++ words_of (fun _ => true) ", " ++ words_of (fun _ => true) "-".
Definition after_year : list (list (bool * ascii)) := words_of (fun d => negb (is_word d)) "" ++ words_of (fun d => negb (Ascii.eqb d "b")) " ".
Definition runs (tl : tail) (ah : list (bool * ascii)) (f : family) : bool := forallb (fun b => forallb (seg_on true tl mn_after (PWord b) ah) f) [true; false].
Lemma bare_end : runs closed [] f_bare = true. Proof. vm_compute. reflexivity. Qed.
Lemma bare_more : forallb (fun ah => runs anything ah f_bare) after_bare = true. Proof. vm_compute. reflexivity. Qed.
Lemma year_end : runs closed [] f_years = true. Proof. vm_compute. reflexivity. Qed.
Lemma year_more : forallb (fun ah => runs anything ah f_years) after_year = true. Proof. vm_compute. reflexivity. Qed.
Lemma year_b : runs (Tail (fun c => Ascii.eqb (lower c) c && negb (Ascii.eqb c "e")) true) (sh_word (bs " b")) f_years = true. Proof. vm_compute. reflexivity. Qed.
Lemma after_digit : class_alike true mn_after is_digit "0" = true. Proof. vm_compute. reflexivity. Qed.

Lemma takes_prev ic r o w T o' c : takes ic r o w T o' c -> o' = lastc w o.
Proof.
  intros H. apply rm_sound in H as (s' & M & E). injection E as ->. destruct (mt_word _ _ _ _ M) as (v & cs & E & P & _). cbn [s_rest s_prev] in *. apply app_inv_tail in E. subst v. exact P.
Qed.
(** nothing of the rest of the pattern matches before a letter *)
Definition letter_ci (c : ascii) : bool := set_ok true false (map CChar (bs "abcdefghijklmnopqrstuvwxyz")) c.
Lemma letter_stops c T o cs : letter_ci c = true -> rm true mn_after (mkst o (c :: T) cs) Some = None.
Proof.
  intros Hc. destruct (rm true mn_after (mkst o (c :: T) cs) Some) as [x|] eqn:E; [|reflexivity]. exfalso.
  pose proof (forall_ascii (fun c => implb (letter_ci c) (agree true mn_after c (kind (lower c)) && Bool.eqb (is_word c) (is_word (kind (lower c))) && existsb (Ascii.eqb (kind (lower c))) (filter is_word kinds))) ltac:(vm_compute; reflexivity) c) as Q.
  cbv beta in Q. rewrite Hc in Q. cbn [implb] in Q. apply andb_prop in Q as [Q Qk]. apply andb_prop in Q as [Qa Qw]. apply Bool.eqb_prop in Qw.
  assert (Ak : alike true mn_after (c, kind (lower c))) by (split; assumption). apply existsb_exists in Qk as (d & Id & Ed). apply Ascii.eqb_eq in Ed. rewrite Ed in Ak.
  assert (Hr : rel0 true mn_after T (mky PAny [SC d d] [] 0) (mkst o (c :: T) cs)) by (exists [SC c d]; split; [constructor; [reflexivity|constructor]|]; split; [constructor; [exact Ak|constructor]|]; split; [exact Logic.I|reflexivity]).
  pose proof (yrm_sound0 true mn_after anything T ltac:(destruct T; reflexivity) mn_after (fun _ _ H => H) _ _ Yes Some Hr ltac:(intros s' x' _ _; exists x'; reflexivity)) as A.
  pose proof (proj1 (forallb_forall (fun d => match yrm true anything mn_after (mky PAny [SC d d] [] 0) Yes with No => true | _ => false end) (filter is_word kinds)) ltac:(vm_compute; reflexivity) d Id) as B. cbv beta in B.
  destruct (yrm true anything mn_after (mky PAny [SC d d] [] 0) Yes); try discriminate B. cbn [agrees0] in A. rewrite E in A. discriminate.
Qed.
Lemma known_full m : In m mn_full -> In m mn_known.
Proof. intros I. pose proof (proj1 (forallb_forall (fun m => existsb (String.eqb m) mn_known) mn_full) ltac:(vm_compute; reflexivity) m I) as Q. cbv beta in Q. apply existsb_exists in Q as (k & Ik & E). apply String.eqb_eq in E. subst. exact Ik. Qed.
Definition name_ends (w : string) (R : bytes) : Prop := tail_ok (no_letter ".") R \/ (In w mn_full /\ tail_ok (no_letter "") R).
Lemma name_taken o w R : In w mn_known -> name_ends w R -> rm true name_re (mkst o (bs w ++ R) []) Some = Some (mkst (lastc (bs w) o) R [(2, bs w)]).
Proof.
  intros I H.
  assert (K : forall tl ws, forallb (seg_on true tl name_re PAny []) (f_names ws) = true -> In w ws -> tail_ok tl R -> takes true name_re o (bs w) R (lastc (bs w) o) [(2, bs w)]).
  { intros tl ws F Iw HT. rewrite forallb_forall in F. specialize (F ([sh_word (bs w)], [(2, [0])]) ltac:(apply in_map_iff; exists w; auto)).
    assert (Sh : sh_word (bs w) = map shape_of (cased (bs w) (bs w))) by (unfold sh_word; generalize (bs w) as v; induction v as [|c v IH]; [reflexivity|cbn; f_equal; exact IH]). rewrite Sh in F.
    destruct (seg_ok true name_re tl name_re PAny [] [cased (bs w) (bs w)] [(2, [0])] o R (fun _ _ H => H) F) as (o' & q & A & _); [cbn [List.concat]; rewrite app_nil_r; apply self_ok|constructor|exact HT|exact Logic.I|].
    cbn [List.concat app] in A. rewrite app_nil_r, self_text in A. change (items_text [] ++ R) with R in A. unfold caps_of in A. cbn [map fst snd nth List.concat] in A. rewrite app_nil_r, self_text in A. rewrite <- (takes_prev _ _ _ _ _ _ _ A). exact A. }
  unfold takes in K. destruct H as [H|[If H]]; [exact (K _ _ names_ok I H)|exact (K _ _ full_ok If H)].
Qed.
(** the name, then whatever the rest of the pattern takes *)
Lemma letter_look x K : rm true (RLook true letter_re) x K = match s_rest x with c :: _ => if letter_ci c then None else K x | [] => K x end.
Proof. unfold letter_re. cbn [rm]. destruct (s_rest x) as [|c t]; [reflexivity|]. unfold letter_ci. destruct (set_ok _ _ _ c); reflexivity. Qed.
Lemma name_then o w yr T cs : In w mn_known -> name_ends w (yr ++ T) -> takes true mn_after (lastc (bs w) o) yr T (lastc yr (lastc (bs w) o)) cs ->
  takes true (RCat (RGrp 2 mn_months) mn_after) o (bs w ++ yr) T (lastc yr (lastc (bs w) o)) (cs ++ [(2, bs w)]).
Proof.
  intros I Hn Ht. unfold takes in *. pose proof (name_taken o w (yr ++ T) I Hn) as Nt. rewrite <- app_assoc. set (U := yr ++ T) in *.
  pose proof (rm_frame true [(2, bs w)] mn_after (mkst (lastc (bs w) o) U []) Some Some ltac:(reflexivity)) as F. unfold addc in F at 1. cbn [s_prev s_rest s_caps app] in F. rewrite Ht in F. cbn [option_map addc s_prev s_rest s_caps] in F.
  unfold name_re in Nt. rewrite rm_cat, rm_grp in Nt. rewrite rm_cat, rm_grp.
  refine (proj2 (rm_first_gen true _ _ mn_months _ _ _ _ _) Nt); intros [p u c]; cbn [s_prev s_rest s_caps]; intros Q; rewrite letter_look in Q; cbn [s_rest] in Q.
  - destruct u as [|c0 u]; [discriminate|]. destruct (letter_ci c0) eqn:Lc; [|discriminate]. apply letter_stops. exact Lc.
  - assert (Q' : mkst p u ((2, consumed (mkst o (bs w ++ U) []) (mkst p u c)) :: c) = mkst (lastc (bs w) o) U [(2, bs w)]) by (destruct u as [|c0 u]; [|destruct (letter_ci c0); [discriminate|]]; apply some_inj in Q; exact Q).
    rewrite Q'. exact F.
Qed.

(** ** The year, and what follows *)
Definition okm (l : list sitem) : Prop := Forall (item_ok' true mn_after) l.
Definition exact (w : bytes) : list sitem := cased w w.
Definition nums (w : bytes) : list sitem := map (fun c => SC c "0"%char) w.
Lemma exact_shapes w : map shape_of (exact w) = sh_word w.
Proof. unfold exact, sh_word. induction w as [|c w IH]; [reflexivity|]. cbn. f_equal. exact IH. Qed.
Lemma nums_shapes w : map shape_of (nums w) = sh_digits (List.length w).
Proof. unfold nums, sh_digits. induction w as [|c w IH]; [reflexivity|]. cbn. f_equal. exact IH. Qed.
Lemma nums_text w : items_text (nums w) = w.
Proof. unfold nums. induction w as [|c w IH]; [reflexivity|]. cbn in *. f_equal. exact IH. Qed.
Lemma nums_ok w : digits w -> okm (nums w).
Proof. unfold nums. induction 1 as [|c w Hc D IH]; constructor; [apply (char_ok _ _ _ _ _ after_digit Hc)|exact IH]. Qed.
Lemma run_taken tl ah f segs b T o c : runs tl (map shape_of ah) f = true -> In (map (map shape_of) segs, b) f -> Forall okm segs -> okm ah -> tail_ok tl T -> o = Some c ->
  takes true mn_after o (items_text (List.concat segs)) (items_text ah ++ T) (lastc (items_text (List.concat segs)) o) (caps_of segs b).
Proof.
  intros H I F Fa HT Ho. unfold runs in H. rewrite forallb_forall in H. specialize (H (is_word c) ltac:(destruct (is_word c); cbn; auto)). rewrite forallb_forall in H. specialize (H _ I).
  assert (G : okm (List.concat segs)). { clear - F. induction F; cbn; [constructor|]. apply Forall_app; split; assumption. }
  destruct (seg_ok true mn_after tl mn_after (PWord (is_word c)) ah segs b o T (fun _ _ H => H) H G Fa HT ltac:(exists c; auto)) as (o' & q & A & _). rewrite <- (takes_prev _ _ _ _ _ _ _ A). exact A.
Qed.
Definition follows (f : family) (T : bytes) : Prop := exists tl ah T', runs tl (map shape_of ah) f = true /\ okm ah /\ T = items_text ah ++ T' /\ tail_ok tl T'.
Lemma kind_in d : In (kind d) kinds.
Proof. pose proof (forall_ascii (fun c => existsb (Ascii.eqb (kind c)) kinds) ltac:(vm_compute; reflexivity) d) as Q. cbv beta in Q. apply existsb_exists in Q as (k & I & E). apply Ascii.eqb_eq in E. rewrite E. exact I. Qed.
Lemma follows_more fam P f pre d T : forallb (fun ah => runs anything ah fam) P = true -> (forall w, In w (words_of f pre) -> In w P) ->
  is_low d = true -> is_space d = false -> is_digit d = false -> f (kind d) = true -> follows fam (bs pre ++ d :: T).
Proof.
  intros H Sub L S D F. exists anything, (exact (bs pre) ++ [SC d (kind d)]), T. split; [|split; [|split; [|destruct T; reflexivity]]].
  - rewrite forallb_forall in H. apply H. apply Sub. rewrite map_app, exact_shapes. cbn [map shape_of]. unfold words_of. apply in_map_iff. exists (kind d). split; [unfold sh_word; rewrite map_app; reflexivity|apply filter_In; split; [apply kind_in|exact F]].
  - apply Forall_app. split; [apply self_ok|constructor; [apply kind_ok; assumption|constructor]].
  - rewrite items_text_app. unfold exact. rewrite self_text, <- app_assoc. reflexivity.
Qed.
Lemma follows_end fam : runs closed [] fam = true -> follows fam [].
Proof. intros H. exists closed, [], []. split; [exact H|]. split; [constructor|]. split; reflexivity. Qed.
Lemma kind_word d : is_word (kind d) = is_word d.
Proof. pose proof (forall_ascii (fun c => Bool.eqb (is_word (kind c)) (is_word c)) ltac:(vm_compute; reflexivity) d) as Q. cbv beta in Q. apply Bool.eqb_prop in Q. exact Q. Qed.
Lemma kind_sign d : is_word d = false -> d <> ","%char -> d <> "-"%char -> Ascii.eqb "!" (kind d) = true.
Proof.
  intros W N1 N2. pose proof (forall_ascii (fun c => is_word c || Ascii.eqb c "," || Ascii.eqb c "-" || Ascii.eqb "!" (kind c)) ltac:(vm_compute; reflexivity) d) as Q. cbv beta in Q. rewrite W in Q.
  destruct (Ascii.eqb_spec d ","); [contradiction|]. destruct (Ascii.eqb_spec d "-"); [contradiction|]. exact Q.
Qed.
Lemma kind_b d : d <> "b"%char -> negb (Ascii.eqb (kind d) "b") = true.
Proof. intros N. pose proof (forall_ascii (fun c => Ascii.eqb c "b" || negb (Ascii.eqb (kind c) "b")) ltac:(vm_compute; reflexivity) d) as Q. cbv beta in Q. destruct (Ascii.eqb_spec d "b"); [contradiction|]. exact Q. Qed.
Lemma word_digit d : is_word d = false -> is_digit d = false.
Proof. unfold is_word. destruct (is_digit d); [rewrite ?Bool.orb_true_r; cbn; auto|auto]. Qed.
Lemma head_low c T : low (c :: T) -> is_low c = true. Proof. intros L. inversion L. assumption. Qed.
Ltac subset := let w := fresh in let I := fresh in intros w I; cbn [In]; unfold after_bare, after_year; repeat first [exact I | apply in_or_app; (left; exact I) | apply in_or_app; right].
Lemma bare_follows w T : low T -> month_closed w None T -> follows f_bare T.
Proof.
  intros L H. destruct T as [|c T]; [apply follows_end, bare_end|]. cbn [month_closed] in H. destruct H as [(W & B & N)|[(d & T2 & E & B & D & W)|(_ & s & d & T2 & I & E & B & D)]].
  - destruct (N eq_refl) as (N1 & N2 & _). apply (follows_more f_bare after_bare (Ascii.eqb "!") "" c T bare_more); auto; [subset|apply (head_low _ _ L)|apply word_digit; exact W|apply kind_sign; assumption].
  - rewrite E in *. apply (follows_more f_bare after_bare is_word " " d T2 bare_more); auto; [subset|apply low_app in L as [_ L]; apply (head_low _ _ L)|rewrite kind_word; exact W].
  - rewrite E in *. assert (Ld : is_low d = true) by (apply low_app in L as [_ L]; apply (head_low _ _ L)).
    destruct I as [<-|[<-|[<-|[]]]]; apply (follows_more f_bare after_bare (fun _ => true)  _ d T2 bare_more); auto; subset.
Qed.
Lemma year_follows w yy T : low T -> month_closed w (Some yy) T -> follows f_years T.
Proof.
  intros L H. destruct T as [|c T]; [apply follows_end, year_end|]. cbn [month_closed] in H. destruct H as [(W & B & N)|[(d & T2 & E & B & D & W)|(N & _)]]; [| |discriminate].
  - apply (follows_more f_years after_year (fun d => negb (is_word d)) "" c T year_more); auto; [subset|apply (head_low _ _ L)|apply word_digit; exact W|rewrite kind_word, W; reflexivity].
  - rewrite E in *. assert (L2 : low (d :: T2)) by (apply low_app in L as [_ L]; exact L). destruct (ascii_dec d "b") as [->|Nb].
    + exists (Tail (fun c => Ascii.eqb (lower c) c && negb (Ascii.eqb c "e")) true), (exact (bs " b")), T2. split; [rewrite exact_shapes; exact year_b|]. split; [apply self_ok|]. split; [unfold exact; rewrite self_text; reflexivity|].
      destruct T2 as [|x T2]; [reflexivity|]. inversion L2 as [|? ? _ L3]. inversion L3 as [|? ? L4 _]. cbn. unfold is_low in L4. rewrite L4. destruct (Ascii.eqb_spec x "e") as [->|]; [|reflexivity]. exfalso. apply W. exists T2. reflexivity.
    + apply (follows_more f_years after_year (fun d => negb (Ascii.eqb d "b")) " " d T2 year_more); auto; [subset|apply (head_low _ _ L2)|apply kind_b; exact Nb].
Qed.

(** ** The whole phrase *)
Definition caps_for (yr : bytes) (y : option (bytes * era)) (cs : list (nat * bytes)) : Prop :=
  match y with None => cs = [] | Some (yy, e) => exists er, era_text er e /\ ((er = [] /\ cs = [(3, yy)]) \/ cs = [(4, er); (3, yy)]) end.
Lemma after_taken w yr y T c : year_part yr y -> low T -> month_closed w y T -> exists cs, takes true mn_after (Some c) yr T (lastc yr (Some c)) cs /\ caps_for yr y cs.
Proof.
  intros Y L H. destruct Y as [|sep yy er e Is D Ly Er].
  - destruct (bare_follows w T L H) as (tl & ah & T' & R & Oa & -> & HT). exists []. split; [|reflexivity].
    apply (run_taken tl ah f_bare [[]] [] T' (Some c) c R); auto. left. reflexivity. repeat constructor.
  - destruct (year_follows w (yy, e) T L H) as (tl & ah & T' & R & Oa & -> & HT).
    assert (K : forall b, In ([sh_word (bs sep); sh_digits 4; sh_word er], b) f_years -> takes true mn_after (Some c) (bs sep ++ yy ++ er) (items_text ah ++ T') (lastc (bs sep ++ yy ++ er) (Some c)) (caps_of [exact (bs sep); nums yy; exact er] b)).
    { intros b I. pose proof (run_taken tl ah f_years [exact (bs sep); nums yy; exact er] b T' (Some c) c R) as Q.
      assert (Ex : items_text (List.concat [exact (bs sep); nums yy; exact er]) = bs sep ++ yy ++ er) by (cbn [List.concat]; rewrite app_nil_r, !items_text_app, nums_text; unfold exact; rewrite !self_text; reflexivity).
      rewrite Ex in Q. apply Q; auto; [cbn [map]; rewrite !exact_shapes, nums_shapes, Ly; exact I|]. constructor; [apply self_ok|]. constructor; [apply nums_ok; exact D|]. constructor; [apply self_ok|constructor]. }
    assert (C : forall b, caps_of [exact (bs sep); nums yy; exact er] b = map (fun x => (fst x, List.concat (map (fun i => nth i [bs sep; yy; er] []) (snd x)))) b).
    { intros b. unfold caps_of. apply map_ext. intros [n is]. cbn [fst snd]. f_equal. f_equal. apply map_ext. intros [|[|[|i]]]; cbn [nth]; unfold exact; rewrite ?self_text, ?nums_text; try reflexivity. destruct i; reflexivity. }
    destruct er as [|x er'] eqn:Ee.
    + exists [(3, yy)]. split; [|exists []; split; [exact Er|left; split; reflexivity]]. specialize (K [(3, [1])]). rewrite C in K. cbn [map fst snd nth List.concat] in K. rewrite !app_nil_r in K. rewrite !app_nil_r. apply K.
      clear - Is. cbn [In year_signs] in Is. decompose [or] Is; try contradiction; subst sep; apply member_in; vm_compute; reflexivity.
    + rewrite <- Ee in *. exists [(4, er); (3, yy)]. split; [|exists er; split; [exact Er|right; reflexivity]]. specialize (K [(4, [2]); (3, [1])]). rewrite C in K. cbn [map fst snd nth List.concat] in K. rewrite !app_nil_r in K. apply K.
      assert (I : exists s, In s era_texts /\ er = bs s) by (clear - Ee Er; destruct Er as [->|[-> ->]]; [destruct e; [discriminate|exists "ad"|exists "bc"|exists "be"]; (split; [cbn; tauto|reflexivity])|exists " be"; split; [cbn; tauto|reflexivity]]).
      destruct I as (s & I & ->). clear - I Is. cbn [In era_texts] in I. cbn [In year_signs] in Is. decompose [or] I; try contradiction; subst s; decompose [or] Is; try contradiction; subst sep; apply member_in; vm_compute; reflexivity.
Qed.

Lemma spelt_known mw m : month_spelt mw m -> exists s, In s mn_known /\ mw = bs s /\ tbl_get mw MONTH_CONSTANTS = m /\ (1 <= m <= 12)%Z.
Proof.
  intros ((s & Hs) & N1 & N2).
  assert (F : forallb (fun x => let ok w := (String.eqb w "jun" || String.eqb w "jun." || (existsb (String.eqb w) mn_known && (tbl_get (bs w) MONTH_CONSTANTS =? snd x)%Z && (1 <=? snd x)%Z && (snd x <=? 12)%Z)) in ok (fst x) && (existsb (String.eqb (fst x)) (map fst month_names) || ok (fst x ++ ".")%string)) (month_names ++ month_short_names) = true) by (vm_compute; reflexivity).
  rewrite forallb_forall in F.
  assert (Fin : forall w, mw = bs w -> (String.eqb w "jun" || String.eqb w "jun." || (existsb (String.eqb w) mn_known && (tbl_get (bs w) MONTH_CONSTANTS =? m)%Z && (1 <=? m)%Z && (m <=? 12)%Z)) = true -> exists s, In s mn_known /\ mw = bs s /\ tbl_get mw MONTH_CONSTANTS = m /\ (1 <= m <= 12)%Z).
  { intros w -> Q. destruct (String.eqb_spec w "jun") as [->|_]; [congruence|]. destruct (String.eqb_spec w "jun.") as [->|_]; [congruence|]. cbn [orb] in Q. apply andb_prop in Q as [Q Q4]. apply andb_prop in Q as [Q Q3]. apply andb_prop in Q as [Q1 Q2].
    apply existsb_exists in Q1 as (k & Ik & Ek). apply String.eqb_eq in Ek. subst k. exists w. repeat split; auto; lia. }
  destruct Hs as [[I ->]|[I Hs]].
  - specialize (F (s, m) ltac:(apply in_or_app; left; exact I)). cbn [fst snd] in F. apply andb_prop in F as [F _]. apply (Fin s eq_refl F).
  - specialize (F (s, m) ltac:(apply in_or_app; right; exact I)). cbn [fst snd] in F. apply andb_prop in F as [F1 F2]. destruct Hs as [-> | ->]; [apply (Fin s eq_refl F1)|].
    assert (Ns : existsb (String.eqb s) (map fst month_names) = false) by (pose proof (proj1 (forallb_forall (fun x => negb (existsb (String.eqb (fst x)) (map fst month_names))) month_short_names) ltac:(vm_compute; reflexivity) _ I) as Q; cbv beta in Q; apply negb_true_iff in Q; exact Q).
    rewrite Ns in F2. cbn [orb] in F2. apply (Fin (s ++ ".")%string); [|exact F2]. unfold bs. clear. induction s as [|c s IH]; [reflexivity|]. cbn. f_equal. exact IH.
Qed.
Lemma full_known w : full_name w -> exists s, In s mn_full /\ w = bs s.
Proof.
  intros (s & m & I & N & ->). exists s. split; [|reflexivity]. pose proof (proj1 (forallb_forall (fun x => String.eqb (fst x) "may" || existsb (String.eqb (fst x)) mn_full) month_names) ltac:(vm_compute; reflexivity) _ I) as Q. cbn [fst] in Q.
  destruct (String.eqb_spec s "may"); [contradiction|]. cbn [orb] in Q. apply existsb_exists in Q as (k & Ik & Ek). apply String.eqb_eq in Ek. subst. exact Ik.
Qed.
Lemma bs_inj a : forall b, bs a = bs b -> a = b.
Proof. unfold bs. induction a as [|c a IH]; intros [|d b] E; cbn in E; try discriminate; [reflexivity|]. injection E as -> E. f_equal. apply IH. exact E. Qed.
Lemma plain_sign c : is_low c = true -> is_word c = false -> is_letter c = false.
Proof. intros _. pose proof (forall_ascii (fun c => is_word c || negb (is_letter c)) ltac:(vm_compute; reflexivity) c) as Q. cbv beta in Q. intros W. rewrite W in Q. destruct (is_letter c); [discriminate|reflexivity]. Qed.
Lemma no_letter_head c R : is_low c = true -> is_letter c = false -> c <> "."%char -> tail_ok (no_letter ".") (c :: R).
Proof. intros L N D. change (Ascii.eqb (lower c) c && negb (is_letter c) && negb (Ascii.eqb c "." || false) = true). unfold is_low in L. rewrite L, N. destruct (Ascii.eqb_spec c "."); [contradiction|]. reflexivity. Qed.
Lemma digit_head c : is_digit c = true -> is_letter c = false /\ c <> "."%char /\ is_low c = true.
Proof. intros D. pose proof (forall_ascii (fun c => negb (is_digit c) || (negb (is_letter c) && negb (Ascii.eqb c ".") && is_low c)) ltac:(vm_compute; reflexivity) c) as Q. cbv beta in Q. rewrite D in Q. cbn [negb orb] in Q. apply andb_prop in Q as [Q Q3]. apply andb_prop in Q as [Q1 Q2]. destruct (is_letter c); [discriminate|]. destruct (Ascii.eqb_spec c "."); [discriminate|]. auto. Qed.
Lemma closed_ends s yr y T : In s mn_known -> year_part yr y -> low T -> month_closed (bs s) y T -> name_ends s (yr ++ T).
Proof.
  intros I Y L H. destruct Y as [|sep yy er e Is D Ly Er].
  - cbn [app]. destruct T as [|c T]; [left; reflexivity|]. pose proof (head_low _ _ L) as Lc. cbn [month_closed] in H. destruct H as [(W & B & N)|[(d & T2 & E & B & _)|(_ & q & d & T2 & Iq & E & _)]].
    + destruct (N eq_refl) as (_ & _ & N3). destruct (ascii_dec c ".") as [->|Nc].
      * right. destruct (full_known _ (N3 eq_refl)) as (s' & I' & E'). apply bs_inj in E'. subst s'. split; [exact I'|]. reflexivity.
      * left. apply no_letter_head; [exact Lc|apply plain_sign; assumption|exact Nc].
    + left. rewrite E. reflexivity.
    + left. rewrite E. destruct Iq as [<-|[<-|[<-|[]]]]; reflexivity.
  - left. cbn [In year_signs] in Is. decompose [or] Is; try contradiction; subst sep; try reflexivity.
    destruct yy as [|c yy]; [discriminate|]. inversion D as [|? ? Dc _]; subst. destruct (digit_head c Dc) as (A1 & A2 & A3). change (bs "") with (@nil ascii). cbn [app]. apply no_letter_head; assumption.
Qed.
Theorem month_taken o mw m yr y T : month_spelt mw m -> year_part yr y -> low T -> month_closed mw y T ->
  exists cs, takes true (RCat (RGrp 2 mn_months) mn_after) o (mw ++ yr) T (lastc (mw ++ yr) o) (cs ++ [(2, mw)]) /\ caps_for yr y cs.
Proof.
  intros Ms Y L H. destruct (spelt_known _ _ Ms) as (s & I & -> & _). 
  assert (Ne : bs s <> []) by (clear - I; cbn in I; decompose [or] I; try contradiction; subst; discriminate).
  destruct (exists_last Ne) as (u & c & Eu). assert (Lc : lastc (bs s) o = Some c) by (rewrite Eu, lastc_app; reflexivity).
  destruct (after_taken (bs s) yr y T c Y L H) as (cs & Ht & Hc). rewrite <- Lc in Ht. exists cs. split; [|exact Hc].
  pose proof (name_then o s yr T cs I (closed_ends s yr y T I Y L H) Ht) as Q. rewrite <- (takes_prev _ _ _ _ _ _ _ Q). exact Q.
Qed.

(** ** The lead *)
Lemma months_letters w : low w -> lang true mn_months w -> exists a b c v, w = a :: b :: c :: v /\ is_letter a = true /\ is_letter b = true /\ is_letter c = true.
Proof. intros Lw L. word_cases L; eexists _, _, _, _; (split; [reflexivity|split; [reflexivity|split; reflexivity]]). Qed.
Lemma no_month_here o x T cs K : low (x :: T) -> (is_letter x = false \/ exists b T', T = b :: T' /\ is_letter b = false) -> rm true (RCat (RGrp 2 mn_months) mn_after) (mkst o (x :: T) cs) K = None.
Proof.
  intros L H. destruct (rm true (RCat (RGrp 2 mn_months) mn_after) (mkst o (x :: T) cs) K) as [z|] eqn:E; [|reflexivity]. exfalso.
  apply rm_sound in E as (s' & M & _). destruct M as (s1 & M & _). destruct M as (s2 & M & _). destruct (mt_word _ _ _ _ M) as (w & c & Ew & _ & Lw & _). cbn [s_rest] in Ew.
  assert (Ll : low w) by (rewrite Ew in L; apply low_app in L; apply L). destruct (months_letters w Ll Lw) as (a & b & d & v & -> & A1 & A2 & A3). cbn [app] in Ew. injection Ew as -> ->. 
  destruct H as [H|(b' & T' & E & H)]; [congruence|]. injection E as <- _. congruence.
Qed.
Lemma blanks_run : seg_on true (Tail (fun c => negb (is_space c)) false) SPp PAny [] ([sh_spaces], []) = true. Proof. vm_compute. reflexivity. Qed.
Lemma blanks_class : class_alike true SPp is_space " " = true. Proof. vm_compute. reflexivity. Qed.
Lemma blanks_taken o sp c R : blanks sp -> sp <> [] -> is_space c = false -> takes true SPp o sp (c :: R) (lastc sp o) [].
Proof.
  intros B N Hc. pose proof (spread_ok SPp is_space " " sp blanks_class B) as Ok. assert (Sh : map shape_of (spread sp " ") = sh_spaces) by (destruct sp; [congruence|reflexivity]).
  pose proof blanks_run as H. rewrite <- Sh in H.
  destruct (seg_ok true SPp _ SPp PAny [] [spread sp " "] [] o (c :: R) (fun _ _ H => H) H) as (o' & q & A & _); [cbn [List.concat]; rewrite app_nil_r; exact Ok|constructor|cbn; rewrite Hc; reflexivity|exact Logic.I|].
  cbn [List.concat] in A. rewrite app_nil_r, spread_text in A. change (items_text [] ++ c :: R) with (c :: R) in A. rewrite <- (takes_prev _ _ _ _ _ _ _ A). exact A.
Qed.
Lemma rm_alt ic a b s k : rm ic (RAlt a b) s k = match rm ic a s k with Some x => Some x | None => rm ic b s k end. Proof. reflexivity. Qed.
Lemma head_letter mw m : month_spelt mw m -> exists c v, mw = c :: v /\ is_letter c = true.
Proof.
  intros H. destruct (spelt_known _ _ H) as (s & I & -> & _). pose proof (proj1 (forallb_forall (fun s => match bs s with c :: _ => is_letter c | [] => false end) mn_known) ltac:(vm_compute; reflexivity) s I) as Q. cbv beta in Q.
  destruct (bs s) as [|c v]; [discriminate|]. exists c, v. auto.
Qed.
Lemma letter_facts c : is_letter c = true -> is_space c = false /\ is_word c = true /\ is_digit c = false.
Proof. intros H. pose proof (forall_ascii (fun c => negb (is_letter c) || (negb (is_space c) && is_word c && negb (is_digit c))) ltac:(vm_compute; reflexivity) c) as Q. cbv beta in Q. rewrite H in Q. cbn [negb orb] in Q. destruct (is_space c), (is_word c), (is_digit c); try discriminate; auto. Qed.
Lemma consumed_app o a b p cs cs' : consumed (mkst o (a ++ b) cs) (mkst p b cs') = a.
Proof. unfold consumed. cbn [s_rest]. rewrite app_length, Nat.add_sub, firstn_app, Nat.sub_diag, firstn_all. cbn. apply app_nil_r. Qed.
Lemma lead_then o lead u R cs o' T : opening_sign lead -> low (lead ++ R) -> (exists c v, R = c :: v /\ is_letter c = true) -> R = u ++ T ->
  takes true (RCat (RGrp 2 mn_months) mn_after) (lastc lead o) u T o' cs -> takes true month_name_re o (lead ++ u) T o' (cs ++ [(1, lead)]).
Proof.
  intros (x & sp & -> & Hx & B & Hs) Lo (c & v & Er & Hc) Eu Ht. unfold takes in *. rewrite <- app_assoc, <- Eu in *. rewrite mn_split, rm_cat, rm_grp.
  destruct (letter_facts c Hc) as (C1 & C2 & C3).
  pose proof (rm_frame true [(1, x :: sp)] (RCat (RGrp 2 mn_months) mn_after) (mkst (lastc (x :: sp) o) R []) Some Some ltac:(reflexivity)) as F. unfold addc in F at 1. cbn [s_prev s_rest s_caps app] in F. rewrite Ht in F. cbn [option_map addc s_prev s_rest s_caps] in F.
  unfold mn_lead. rewrite rm_alt.
  set (k := fun s' : st => rm true (RCat (RGrp 2 mn_months) mn_after) (mkst (s_prev s') (s_rest s') ((1, consumed (mkst o ((x :: sp) ++ R) []) s') :: s_caps s')) Some).
  assert (B1 : rm true RBol (mkst o ((x :: sp) ++ R) []) k = None).
  { cbn [rm]. destruct (at_bol _); [|reflexivity]. unfold k. cbn [s_prev s_rest s_caps app]. apply no_month_here; [exact Lo|].
    destruct Hs as [[_ N]|[W ->]]; [right; destruct sp as [|b sp]; [congruence|]; exists b, (sp ++ R); split; [reflexivity|]; inversion B as [|? ? Hb _]; destruct (is_letter b) eqn:Lb; [destruct (letter_facts b Lb); congruence|reflexivity]|].
    left. destruct (is_letter x) eqn:Lx; [destruct (letter_facts x Lx) as (_ & Q & _); congruence|reflexivity]. }
  rewrite B1, rm_alt. assert (K1 : k (mkst (lastc (x :: sp) o) R []) = Some (mkst o' T (cs ++ [(1, x :: sp)]))).
  { unfold k. cbn [s_prev s_rest s_caps]. rewrite consumed_app. exact F. }
  change (RCat (RSet false [CClass false KSpace]) (RStar true (RSet false [CClass false KSpace]))) with SPp. rewrite rm_cat.
  destruct Hs as [[Dx N]|[W ->]].
  - assert (Sx : set_ok true false [CClass true KDigit] x = true) by (pose proof (forall_ascii (fun x => is_digit x || set_ok true false [CClass true KDigit] x) ltac:(vm_compute; reflexivity) x) as Q; cbv beta in Q; rewrite Dx in Q; exact Q).
    assert (G : rm true (RSet false [CClass true KDigit]) (mkst o ((x :: sp) ++ R) []) (fun s' => rm true SPp s' k) = Some (mkst o' T (cs ++ [(1, x :: sp)]))).
    { cbn [rm s_rest app]. rewrite Sx. cbn [s_caps]. rewrite Er in K1 |- *. apply (rm_first _ _ _ _ _ _ (blanks_taken (Some x) sp c v B N C1)). exact K1. }
    rewrite G. reflexivity.
  - cbn [app] in *. assert (G : rm true (RSet false [CClass true KDigit]) (mkst o (x :: R) []) (fun s' => rm true SPp s' k) = None).
    { cbn [rm s_rest]. destruct (set_ok _ _ _ x); [|reflexivity]. unfold SPp. rewrite rm_cat. cbn [rm s_rest s_caps]. rewrite Er.
      replace (set_ok true false [CClass false KSpace] c) with false; [reflexivity|]. pose proof (forall_ascii (fun x => is_space x || negb (set_ok true false [CClass false KSpace] x)) ltac:(vm_compute; reflexivity) c) as Q. cbv beta in Q. rewrite C1 in Q. destruct (set_ok _ _ _ c); [discriminate|reflexivity]. }
    rewrite G. cbn [rm s_rest]. replace (set_ok true true [CClass false KWord; CClass false KSpace] x) with true; [exact K1|].
    pose proof (forall_ascii (fun x => is_space x || is_word x || set_ok true true [CClass false KWord; CClass false KSpace] x) ltac:(vm_compute; reflexivity) x) as Q. cbv beta in Q. rewrite Hx, W in Q. symmetry. exact Q.
Qed.
Lemma start_then u T cs o' : takes true (RCat (RGrp 2 mn_months) mn_after) None u T o' cs -> takes true month_name_re None u T o' (cs ++ [(1, [])]).
Proof.
  intros Ht. unfold takes in *. rewrite mn_split, rm_cat, rm_grp. unfold mn_lead. rewrite rm_alt.
  set (k := fun s' : st => rm true (RCat (RGrp 2 mn_months) mn_after) (mkst (s_prev s') (s_rest s') ((1, consumed (mkst None (u ++ T) []) s') :: s_caps s')) Some).
  assert (B : rm true RBol (mkst None (u ++ T) []) k = k (mkst None (u ++ T) [])) by reflexivity. 
  pose proof (rm_frame true [(1, [])] (RCat (RGrp 2 mn_months) mn_after) (mkst None (u ++ T) []) Some Some ltac:(reflexivity)) as F. unfold addc in F at 1. cbn [s_prev s_rest s_caps app] in F. rewrite Ht in F. cbn [option_map addc s_prev s_rest s_caps] in F.
  assert (K1 : k (mkst None (u ++ T) []) = Some (mkst o' T (cs ++ [(1, [])]))).
  { unfold k. cbn [s_prev s_rest s_caps]. assert (C : consumed (mkst None (u ++ T) []) (mkst None (u ++ T) []) = []) by (unfold consumed; cbn [s_rest]; rewrite Nat.sub_diag; reflexivity). rewrite C. exact F. }
  rewrite B, K1. reflexivity.
Qed.

(** ** No earlier match reaches into the phrase *)
Definition stems : list string := ["jan"; "feb"; "mar"; "apr"; "may"; "jun"; "jul"; "aug"; "sep"; "oct"; "nov"; "dec"].
(** the names without the odd branch of June *)
Definition mn_months' : re := Eval vm_compute in
  pat "Jan\.?|January|Feb\.?|February|Mar\.?|March|Apr\.?|April|May\.?|June|Jul\.?|July|Aug\.?|August|Sep\.?|Sept\.?|September|Oct\.?|October|Nov\.?|November|Dec\.?|December".
Lemma months_odd w : low w -> lang true mn_months w -> (exists t, w = bs "jun" ++ backslash :: t) \/ lang true mn_months' w.
Proof.
  intros Lw L. unfold mn_months in L.
  repeat match type of L with lang _ (RAlt ?a ?b) _ => destruct L as [L|L] end.
  all: try (right; unfold mn_months'; repeat first [exact L | left; exact L | right]; fail).
  left. word_cases L; eexists; reflexivity.
Qed.
Definition mn_whole' : re := RCat mn_months' mn_after.
Lemma stems_clear : forallb (fun h => known_clear (bs h) mn_whole') stems = true. Proof. vm_compute. reflexivity. Qed.
Lemma stem_of mw m : month_spelt mw m -> exists h v, In h stems /\ mw = bs h ++ v.
Proof.
  intros H. destruct (spelt_known _ _ H) as (s & I & -> & _). pose proof (proj1 (forallb_forall (fun s => existsb (fun h => if list_eq_dec ascii_dec (bs h) (firstn 3 (bs s)) then true else false) stems) mn_known) ltac:(vm_compute; reflexivity) s I) as Q. cbv beta in Q.
  apply existsb_exists in Q as (h & Ih & E). destruct (list_eq_dec ascii_dec (bs h) (firstn 3 (bs s))) as [Eh|]; [|discriminate]. exists h, (skipn 3 (bs s)). split; [exact Ih|]. rewrite Eh, firstn_skipn. reflexivity.
Qed.
Lemma lead_words l : lang true mn_lead l -> l = [] \/ exists d s, l = d :: s /\ blanks s.
Proof.
  intros [H|[(u & v & -> & (c & -> & _) & Hv)|(c & -> & _)]].
  - left. exact H.
  - right. exists c, v. split; [reflexivity|]. change (lang true SPp v) in Hv. destruct Hv as (u & v' & -> & (b & -> & Hb) & Hv). apply SPs_blanks in Hv. constructor; [|exact Hv].
    pose proof (forall_ascii (fun x => is_space x || negb (set_ok true false [CClass false KSpace] x)) ltac:(vm_compute; reflexivity) b) as Q. cbv beta in Q. rewrite Hb in Q. destruct (is_space b); [reflexivity|discriminate].
  - right. exists c, []. split; [reflexivity|constructor].
Qed.
(** the last character that is not blank *)
Lemma last_solid (a b : bytes) x y s t : is_space x = false -> is_space y = false -> blanks s -> blanks t -> a ++ x :: s = b ++ y :: t -> a = b /\ x = y /\ s = t.
Proof.
  intros Hx Hy. revert t. induction s as [|c s IH] using rev_ind; intros t Bs Bt E.
  - destruct t as [|d t _] using rev_ind.
    + apply app_inj_tail in E as [-> ->]. auto.
    + exfalso. rewrite app_comm_cons, app_assoc in E. apply app_inj_tail in E as [_ ->]. apply Forall_app in Bt as [_ Bt]. inversion Bt; congruence.
  - apply Forall_app in Bs as [Bs Bc]. destruct t as [|d t _] using rev_ind.
    + exfalso. rewrite app_comm_cons, app_assoc in E. apply app_inj_tail in E as [_ <-]. inversion Bc; congruence.
    + rewrite !app_comm_cons, !app_assoc in E. apply app_inj_tail in E as [E ->]. apply Forall_app in Bt as [Bt _]. destruct (IH t Bs Bt E) as (-> & -> & ->). auto.
Qed.
Lemma word_solid w : w <> [] -> (exists m, month_word w m) \/ w = bs "may." -> exists u e, w = u ++ [e] /\ is_space e = false.
Proof.
  intros N H. destruct (exists_last N) as (u & e & E). exists u, e. split; [exact E|].
  assert (A : Forall (fun c => is_space c = false) w).
  { apply Forall_forall. destruct H as [(m & s & Hs)|Em]; [|subst w; apply Forall_forall; repeat constructor].
    assert (F : forallb (fun x => forallb (fun c => negb (is_space c)) (bs (fst x) ++ bs ".")) (month_names ++ month_short_names) = true) by (vm_compute; reflexivity). rewrite forallb_forall in F.
    intros c Ic. specialize (F (s, m)). cbn [fst] in F. rewrite forallb_forall in F. apply negb_true_iff. destruct Hs as [[I Es]|[I [Es|Es]]]; apply F; try (apply in_or_app; auto; fail); rewrite Es in Ic; try exact Ic; apply in_or_app; left; exact Ic. }
  rewrite E in A. apply Forall_app in A as [_ A]. inversion A; assumption.
Qed.
Lemma none_before_month y lead mw m R a b v z : opening_sign lead -> month_spelt mw m -> low (y ++ lead ++ mw ++ R) -> ~ In backslash (y ++ lead) -> (forall x sp, lead = x :: sp -> ~ month_ends (y ++ [x])) ->
  y = z ++ a -> a <> [] -> lead ++ mw ++ R = b ++ v -> b <> [] -> ~ lang true month_name_re (a ++ b).
Proof.
  intros Op Ms Lo Nb Ne Ey Na Eb Nbb L. pose proof Op as (x & sp & El & Hx & Bs & Hs). specialize (Ne x sp El).
  assert (Lab : low (a ++ b)).
  { rewrite Eb, Ey in Lo. replace ((z ++ a) ++ b ++ v) with (z ++ (a ++ b) ++ v) in Lo by (rewrite <- !app_assoc; reflexivity). exact (low_part _ _ _ Lo). }
  rewrite mn_split in L. destruct L as (l1 & q & E & L1 & Lq). cbn [lang] in L1. change (lang true mn_lead l1) in L1. apply lead_words in L1.
  assert (Cut : (exists d, lead = b ++ d) \/ (exists d, d <> [] /\ b = lead ++ d /\ mw ++ R = d ++ v)).
  { apply app_eq_app in Eb as (d & [(Eb & Ed)|(Eb & Ed)]); [left; exists d; exact Eb|]. destruct d as [|d0 d']; [left; exists []; rewrite Eb, !app_nil_r; reflexivity|right; exists (d0 :: d'); split; [discriminate|auto]]. }
  clear Eb. destruct Cut as [(d & Eb)|(d & Nd & Eb & Ed)].
  - (* b is a part of the lead *)
    destruct b as [|b0 b']; [congruence|]. rewrite El in Eb. cbn [app] in Eb. injection Eb as <- Esp. rewrite Esp in Bs. apply Forall_app in Bs as [Bs _].
    destruct Lq as (w & q2 & -> & Lw & s1 & q3 & -> & Ls & yr & q4 & -> & Ly & Lk). change (lang true mn_months w) in Lw. assert (q4 = []) as -> by exact Lk. rewrite app_nil_r in E. apply SPs_blanks in Ls.
    assert (Lw' : low w). { rewrite E in Lab. apply low_app in Lab as [_ Lab]. apply low_app in Lab as [Lab _]. exact Lab. }
    assert (Iab : forall c, In c (a ++ x :: b') -> In c (y ++ lead)) by (intros c Ic; rewrite Ey, El, Esp; apply in_app_or in Ic as [Ic|[->|Ic]]; apply in_or_app; [left; apply in_or_app; right; exact Ic|right; left; reflexivity|right; right; apply in_or_app; left; exact Ic]).
    assert (Nbw : ~ In backslash w) by (intros Ib; apply Nb, Iab; rewrite E; apply in_or_app; right; apply in_or_app; left; exact Ib).
    assert (Wm : (exists m, month_word w m) \/ w = bs "may.") by (destruct (mn_words w Lw' Lw) as [Ib|[Em|(m' & Mw & _)]]; [contradiction|auto|left; exists m'; exact Mw]).
    assert (Nw : w <> []) by (destruct (months_letters w Lw' Lw) as (? & ? & ? & ? & -> & _); discriminate).
    destruct Ly as [->|Ly].
    + rewrite app_nil_r in E. destruct (word_solid w Nw Wm) as (u & e & Ew & He). rewrite Ew in E. rewrite <- app_assoc, app_assoc in E. cbn [app] in E.
      destruct (last_solid _ _ _ _ _ _ Hx He Bs Ls E) as (Ea & Ex & _). apply Ne. exists (z ++ l1), w. split; [rewrite Ey, Ea, Ew, Ex, <- !app_assoc; reflexivity|]. destruct Wm; auto.
    + unfold mn_year in Ly. destruct Ly as (sep & r1 & -> & _ & s2 & r2 & -> & _ & yy & er & -> & Lyy & Ler). change (lang true D4 yy) in Lyy. apply D4_digits in Lyy as [Dy Ly4].
      destruct Ler as [->|Ler].
      * rewrite app_nil_r in E. destruct (exists_last (l := yy)) as (y0 & dg & Eyy); [destruct yy; [discriminate|discriminate]|]. rewrite Eyy in Dy. apply Forall_app in Dy as [_ Dy]. inversion Dy as [|? ? Dg _]; subst.
        assert (Sd : is_space dg = false) by (pose proof (forall_ascii (fun x => negb (is_digit x) || negb (is_space x)) ltac:(vm_compute; reflexivity) dg) as Q; cbv beta in Q; rewrite Dg in Q; destruct (is_space dg); [discriminate|reflexivity]).
        rewrite !app_assoc in E. destruct (last_solid _ _ _ _ _ _ Hx Sd Bs (Forall_nil _) E) as (_ & Ex & _). subst dg. destruct Hs as [[D _]|[W _]]; [congruence|]. rewrite (word_digit x W) in Dg. discriminate.
      * change (lang true mn_era er) in Ler. assert (Le : low er). { rewrite E in Lab. do 6 apply low_app in Lab as [_ Lab]. exact Lab. }
        destruct (mn_eras er Le Ler) as (e & s3 & Nn & -> & Bs3).
        assert (Hend : exists u c, era_word e = u ++ [c] /\ is_space c = false) by (destruct e; [congruence|exists (bs "a"), "d"%char|exists (bs "b"), "c"%char|exists (bs "b"), "e"%char]; (split; reflexivity)).
        destruct Hend as (u & c & Eu & Hc). 
        assert (E2 : a ++ x :: b' = (l1 ++ w ++ s1 ++ sep ++ s2 ++ yy ++ s3 ++ u) ++ [c]) by (rewrite E, Eu, <- !app_assoc; reflexivity).
        destruct (last_solid _ _ _ _ _ _ Hx Hc Bs (Forall_nil _) E2) as (Ea & Ex & _).
        apply Ne. exists (z ++ l1 ++ w ++ s1 ++ sep ++ s2), (yy ++ s3 ++ era_word e). split; [rewrite Ey, Ea, Eu, Ex, <- !app_assoc; reflexivity|]. right. right. exists yy, s3, e. auto.
  - (* b reaches into the name *)
    subst b. rewrite app_assoc in E, Lab.
    assert (Short : exists s, s <> [] /\ a ++ lead = l1 ++ s /\ q = s ++ d).
    { apply app_eq_app in E as (s & [(E1 & E2)|(E1 & E2)]).
      - destruct s as [|s0 s']; [|exists (s0 :: s'); split; [discriminate|auto]]. exfalso. rewrite app_nil_r in E1. destruct L1 as [->|(d0 & t & -> & Bt)]; [destruct a; [congruence|discriminate]|].
        destruct a as [|a0 a']; [congruence|]. cbn [app] in E1. injection E1 as _ E1. rewrite <- E1, El in Bt. apply Forall_app in Bt as [_ Bt]. inversion Bt; congruence.
      - exfalso. destruct L1 as [->|(d0 & t & E0 & Bt)]; [destruct a; [congruence|discriminate]|]. rewrite E0 in E1.
        destruct a as [|a0 a']; [congruence|]. cbn [app] in E1. injection E1 as _ E1. rewrite E1, El in Bt. apply Forall_app in Bt as [Bt _]. apply Forall_app in Bt as [_ Bt]. inversion Bt; congruence. }
    destruct Short as (s & Ns & Es & Eq). destruct (ends_in s Ns) as (s' & c & Ec).
    assert (Wc : is_word c = false).
    { assert (El2 : exists l', lead = l' ++ [c]).
      { destruct (exists_last (l := lead)) as (l' & c' & E'); [rewrite El; discriminate|]. exists l'. rewrite E', Ec, !app_assoc in Es. apply app_inj_tail in Es as [_ ->]. exact E'. }
      destruct El2 as (l' & E'). destruct Hs as [[_ N]|[W ->]].
      - destruct (exists_last N) as (sp' & b & Eb). rewrite El, Eb, app_comm_cons in E'. apply app_inj_tail in E' as [_ <-]. rewrite Eb in Bs. apply Forall_app in Bs as [_ Bs]. inversion Bs as [|? ? Hb _]; subst.
        pose proof (forall_ascii (fun x => negb (is_space x) || negb (is_word x)) ltac:(vm_compute; reflexivity) b) as Q. cbv beta in Q. rewrite Hb in Q. destruct (is_word b); [discriminate|reflexivity].
      - rewrite El in E'. destruct l' as [|? [|? ?]]; try discriminate. injection E' as <-. exact W. }
    destruct (stem_of _ _ Ms) as (h & hv & Ih & Eh). pose proof stems_clear as Hcl. rewrite forallb_forall in Hcl. specialize (Hcl h Ih).
    rewrite Es, <- app_assoc in Lab. apply low_app in Lab as [_ Lab]. rewrite Ec, <- app_assoc in Lab. cbn [app] in Lab. rewrite Eq, Ec, <- app_assoc in Lq. cbn [app] in Lq.
    assert (Lq' : lang true mn_whole' (s' ++ c :: d)).
    { destruct Lq as (w & rest & Ew & Lw & Lr). change (lang true mn_months w) in Lw.
      assert (Lw' : low w) by (rewrite Ew in Lab; apply low_app in Lab; apply Lab).
      destruct (months_odd w Lw' Lw) as [(t & ->)|Lm]; [exfalso|exists w, rest; auto]. clear - Ew Wc Nb Es Ec Ey.
      assert (I : In backslash s -> False) by (intros I; apply Nb; rewrite Ey, <- app_assoc, Es; apply in_or_app; right; apply in_or_app; right; exact I). rewrite Ec in I.
      destruct s' as [|c1 [|c2 [|c3 s']]]; cbn in Ew; injection Ew as; subst; try discriminate Wc; try (apply I; cbn; tauto).
      destruct s' as [|c4 s']; cbn in *; match goal with H : _ = backslash :: _ |- _ => injection H as; subst end; apply I; tauto. }
    revert Lq'. apply (known_ok (bs h) mn_whole' s' c d v (hv ++ R) Hcl); auto.
    + clear - Ih. cbn in Ih. decompose [or] Ih; try contradiction; subst; discriminate.
    + rewrite <- Ed, Eh, <- app_assoc. reflexivity.
Qed.
