(** * A date such as "March 5" and a clock time (C100), and two such dates joined by a connecting word (C101) *)
From Verif Require Import Base Regex RegexParse Calendar Components Utils Execute Spec View ParserSpec PhraseSpec ClockSpec ClockTextSpec MiddleSpec CalendarCycle CalendarFacts RegexFacts ResultFacts
  ExecuteFacts ParserRe MatchFacts LocateFacts HistoryFacts ParserFacts ZoneFacts MergeFacts ClockFacts FoundFacts OverlapFacts P_MiddleEndian P_TimeExpression MiddleFacts Prop_Casual Prop_Middle Prop_Found Refiners Main Prop_Execute Prop_Refine Prop_Tags
  MainFacts Prop_Main Prop_Answers Prop_Format Prop_Sentence Prop_ClockText Prop_ClockAnswer Prop_DateTime Prop_Range Prop_MonthText.
From Coq Require Import ZifyBool ZifyNat ZifyN.
Open Scope string_scope.
Open Scope list_scope.
Open Scope Z_scope.

Lemma in_others_me : In middle_endian other_parsers. Proof. cbn; tauto. Qed.
Lemma plain_nonempty tx x : plain_month_day tx x -> tx <> [].
Proof. intros P ->. destruct (plain_head _ _ P) as (h & v & Ih & E). symmetry in E. apply app_eq_nil in E as [E _]. clear - Ih E. cbn in Ih. decompose [or] Ih; subst; try contradiction; discriminate. Qed.

(** the result for a single day *)
Lemma month_day_result e text t us pre tx x T l : sane e -> real_instant t us -> Z.of_nat (List.length text) < 2 ^ 32 ->
  plain_month_day tx x -> next_word T -> to_lower text = pre ++ tx ++ T -> (forall a c, pre = a ++ [c] -> is_word c = false) -> no_weekday_before pre (tx ++ T) -> 1 <= md_day x <= 31 -> md_to x = None ->
  alone e middle_endian text (ptime_of t us) = Ret l ->
  exists y r, year_meant t x y /\ In r l /\ stands r pre tx /\ has_end r = false /\ denotes (r_start r) (Moment (Cal y (md_month x) (md_day x)) 0 0 0) /\ no_clock (r_start r) /\
    is_certain Month (r_start r) = true /\ tag_is TTimeExpression r = false.
Proof.
  intros He H Hn P NW Et Sa Nw Hd Nr El. destruct (C98_month_days_stand e gwords_init text t us l pre tx x T He H Hn P NW Et Sa Nw Hd El) as (r & I & St & (y & Ym & (D1 & D2 & D3 & _) & U & En)). rewrite Nr in En.
  assert (V : forall f, In f [Hour; Min; Sec; TzOffset] -> api_get f (r_start r) = 0) by (intros f If; unfold untouched in U; rewrite Forall_forall in U; apply U; exact If).
  exists y, r. split; [exact Ym|]. split; [exact I|]. split; [exact St|]. split; [exact En|]. split; [|split; [|split]].
  - repeat split; [exact (certain_value _ _ _ D3)|exact (certain_value _ _ _ D1)|exact (certain_value _ _ _ D2)|apply (V Hour)|apply (V Min)|apply (V Sec)]; cbn; tauto.
  - apply (untouched_no_clock _ _ U); cbn; tauto.
  - apply D1.
  - exact (untimed_me e text _ l r He El I).
Qed.

(** ** C100 *)
(** A text contains a plainly written month-day date, followed by a word as in C98, later a clock time standing clear as in C93, no connecting word and no zone abbreviation after
    the time, and nothing else is recognised.  Then the program prints that day of the year [y] that is meant, at that time. *)
Theorem C100_month_day_and_time : forall e sortf text t us pre tx x mid c k q post h mi, sane e -> is_sort sortf -> real_instant t us -> Z.of_nat (List.length text) < 2 ^ 31 ->
  to_lower text = pre ++ tx ++ mid ++ c ++ post -> plain_month_day tx x -> md_to x = None -> 1 <= md_day x <= 31 -> next_word (mid ++ c ++ post) -> mid <> [] ->
  (forall a b, pre = a ++ [b] -> is_word b = false) -> no_weekday_before pre (tx ++ mid ++ c ++ post) ->
  clock_words c k q -> clear_before (pre ++ tx ++ mid) -> clear_after q post -> clock_time k h mi -> seconds_fine k -> on_clock (ck_mark k) h < 24 ->
  ~ zone_follows post -> (forall v, In v connectors -> ~ occurs v post) -> only_pair e text (ptime_of t us) middle_endian pre tx mid c ->
  exists y, year_meant t x y /\ (real_date (Cal y (md_month x) (md_day x)) ->
    main e sortf gwords_init text (ptime_of t us) = Ret (line (bs (written (day_moment (Cal y (md_month x) (md_day x)) k h mi))))).
Proof.
  intros e sortf text t us pre tx x mid c k q post h mi He Hs H Hn E P Nr Hd NW Nm Sa Nw Cw Cb Ca Ct Sf H24 Nz Nc Al.
  assert (Hn2 : Z.of_nat (List.length text) < 2 ^ 32) by (clear - Hn; lia).
  destruct (proj2 Al middle_endian in_others_me) as (l & El & _).
  destruct (month_day_result e text t us pre tx x (mid ++ c ++ post) l He H Hn2 P NW E Sa Nw Hd Nr El) as (y & r & Ym & I & St & En & D & N & _ & U).
  exists y. split; [exact Ym|]. intros Rd.
  apply (pair_main e sortf text t us middle_endian pre tx mid c k q post); auto; [exact in_others_me|exact in_parsers_me|exact (plain_nonempty _ _ P)|].
  intros l' El'. unfold alone in El'. rewrite El in El'. apply RelativeFacts.ret_inj in El'. subst l'. exists r. split; [exact I|]. split; [exact (stands_place _ _ _ St)|]. split; [exact En|]. split; [|split; assumption].
  destruct D as (D1 & D2 & D3 & _). split; [exact D1|]. split; [exact D2|exact D3].
Qed.
Print Assumptions C100_month_day_and_time.

(** ** C101 *)
(** Two plainly written month-day dates, a connecting word between them, each followed by a word as in C98, and nothing else is recognised: the program prints the range from the first
    to the second, in the years that are meant.  Dates in the wrong order: the first is printed twice ([later], as in C97). *)
Theorem C101_month_day_range : forall e sortf text t us pre tx x mid tx' x' post v, sane e -> is_sort sortf -> real_instant t us -> Z.of_nat (List.length text) < 2 ^ 31 ->
  to_lower text = pre ++ tx ++ mid ++ tx' ++ post -> plain_month_day tx x -> plain_month_day tx' x' -> md_to x = None -> md_to x' = None -> 1 <= md_day x <= 31 -> 1 <= md_day x' <= 31 ->
  next_word (mid ++ tx' ++ post) -> next_word post -> (forall a b, pre = a ++ [b] -> is_word b = false) -> (forall a b, mid = a ++ [b] -> is_word b = false) -> mid <> [] ->
  no_weekday_before pre (tx ++ mid ++ tx' ++ post) -> no_weekday_before (pre ++ tx ++ mid) (tx' ++ post) ->
  In v connectors -> occurs v mid -> only_two e text (ptime_of t us) middle_endian middle_endian pre tx mid tx' ->
  exists y y', year_meant t x y /\ year_meant t x' y' /\ let m := Moment (Cal y (md_month x) (md_day x)) 0 0 0 in let m' := Moment (Cal y' (md_month x') (md_day x')) 0 0 0 in
    (real_moment m -> real_moment m' ->
      main e sortf gwords_init text (ptime_of t us) = Ret (line (bs (written m ++ " - " ++ written (later m m'))%string))).
Proof.
  intros e sortf text t us pre tx x mid tx' x' post v He Hs H Hn E P P' Nr Nr' Hd Hd' NW NW' Sa Sm Nm Nw Nw' Iv Ov Al.
  assert (Hn2 : Z.of_nat (List.length text) < 2 ^ 32) by (clear - Hn; lia).
  assert (E2 : to_lower text = (pre ++ tx ++ mid) ++ tx' ++ post) by (rewrite E, <- !app_assoc; reflexivity).
  assert (Sa' : forall a b, pre ++ tx ++ mid = a ++ [b] -> is_word b = false).
  { intros a b Eb. destruct (ends_in mid Nm) as (m0 & b0 & Em). rewrite Em, !app_assoc in Eb. apply app_inj_tail in Eb as [_ <-]. exact (Sm m0 b0 Em). }
  destruct (Al middle_endian in_parsers_me) as (l & El & _).
  destruct (month_day_result e text t us pre tx x (mid ++ tx' ++ post) l He H Hn2 P NW E Sa Nw Hd Nr El) as (y & r & Ym & I & St & En & D & _ & M & U).
  destruct (month_day_result e text t us (pre ++ tx ++ mid) tx' x' post l He H Hn2 P' NW' E2 Sa' Nw' Hd' Nr' El) as (y' & r' & Ym' & I' & St' & En' & D' & _ & M' & U').
  exists y, y'. split; [exact Ym|]. split; [exact Ym'|]. cbv zeta. intros Rm Rm'. 
  apply (range_core e sortf text (ptime_of t us) middle_endian middle_endian pre tx mid tx' post _ _ v); auto; try exact in_parsers_me; try (eapply plain_nonempty; eassumption).
  - intros l' El'. unfold alone in El'. rewrite El in El'. apply RelativeFacts.ret_inj in El'. subst l'. exists r, [], mid. rewrite app_nil_r. repeat (split; [first [assumption|reflexivity]|]). exact U.
  - intros l' El'. unfold alone in El'. rewrite El in El'. apply RelativeFacts.ret_inj in El'. subst l'. exists r', []. rewrite app_nil_r. repeat (split; [first [assumption|reflexivity]|]). exact U'.
Qed.
Print Assumptions C101_month_day_range.

(** ** The hypotheses are met *)
Definition no_confusion (T : bytes) : bool :=
  match T with c :: _ => is_word c && negb (is_digit c) && forallb (fun w => negb (if list_eq_dec ascii_dec (bs w) (firstn (List.length (bs w)) T) then true else false)) confusing | [] => false end.
Lemma no_confusion_ok T : no_confusion T = true -> next_word T.
Proof.
  destruct T as [|c T]; [discriminate|]. unfold no_confusion. intros H. apply andb_prop in H as [H H3]. apply andb_prop in H as [H1 H2]. left. exists c, T. split; [reflexivity|]. split; [exact H1|]. split; [destruct (is_digit c); [discriminate H2|reflexivity]|].
  intros w I (v & E). rewrite forallb_forall in H3. specialize (H3 w I). rewrite E, firstn_app, Nat.sub_diag, firstn_all, firstn_O, app_nil_r in H3. destruct (list_eq_dec ascii_dec (bs w) (bs w)); [discriminate H3|congruence].
Qed.
Lemma no_stems pre tx x T : plain_month_day tx x -> md_weekday x = None -> (forall a c, pre = a ++ [c] -> is_word c = false) -> forallb (fun s => negb (Alphabet.containsb (bs s) pre)) weekday_stems = true -> no_weekday_before pre (tx ++ T).
Proof.
  intros P W Sa H. apply (no_stem_before _ _ _ _ P W Sa). intros s I. rewrite forallb_forall in H. specialize (H s I). apply Alphabet.containsb_ok. destruct (Alphabet.containsb (bs s) pre); [discriminate H|reflexivity].
Qed.
Lemma same_me q : In q parsers -> beq (p_pattern q) (p_pattern middle_endian) = true -> q = middle_endian.
Proof. intros I E. cbn in I. repeat (destruct I as [<-|I]; [first [reflexivity|vm_compute in E; discriminate E]|]). contradiction. Qed.
Lemma same_me_other q : In q other_parsers -> beq (p_pattern q) (p_pattern middle_endian) = true -> q = middle_endian.
Proof. intros I E. cbn in I. repeat (destruct I as [<-|I]; [first [reflexivity|vm_compute in E; discriminate E]|]). contradiction. Qed.
Lemma last_sign w c : is_word c = false -> forall a b, w ++ [c] = a ++ [b] -> is_word b = false.
Proof. intros W a b E. apply app_inj_tail in E as [_ <-]. exact W. Qed.
Example C100_case : let t := Moment (Cal 2024 2 27) 9 15 0 in let k := Clock (bs "5") (bs "30") [] Pm in let text := bs "We meet on March 5 at 5:30 PM, bring cake" in let x := MonthDay None 3 5 None None in
  real_instant t 3 /\ to_lower text = bs "we meet on " ++ bs "march 5 " ++ bs "at " ++ bs "5:30 pm" ++ bs ", bring cake" /\ plain_month_day (bs "march 5 ") x /\ next_word (bs "at " ++ bs "5:30 pm" ++ bs ", bring cake") /\
  no_weekday_before (bs "we meet on ") (bs "march 5 " ++ bs "at " ++ bs "5:30 pm" ++ bs ", bring cake") /\
  clock_words (bs "5:30 pm") k (bs " pm") /\ clear_before (bs "we meet on " ++ bs "march 5 " ++ bs "at ") /\ clear_after (bs " pm") (bs ", bring cake") /\ clock_time k 5 30 /\ seconds_fine k /\
  ~ zone_follows (bs ", bring cake") /\ (forall v, In v connectors -> ~ occurs v (bs ", bring cake")) /\
  only_pair strict_env text (ptime_of t 3) middle_endian (bs "we meet on ") (bs "march 5 ") (bs "at ") (bs "5:30 pm") /\
  main strict_env sort_stable gwords_init text (ptime_of t 3) = Ret (line (bs "2024-Mar-05 17:30:00")).
Proof.
  cbv zeta. split; [inst|]. split; [reflexivity|].
  assert (P : plain_month_day (bs "march 5 ") (MonthDay None 3 5 None None)) by (apply (plain_case (bs "march") 3 (bs "5")); [exists "march"; left; split; [cbn; tauto|reflexivity]|repeat constructor|cbn; lia]).
  split; [exact P|]. split; [apply no_confusion_ok; vm_compute; reflexivity|]. split; [apply (no_stems _ _ _ _ P eq_refl); [exact (last_sign (bs "we meet on") " "%char eq_refl)|vm_compute; reflexivity]|].
  split; [exact case_words|].
  split; [apply (clear_letter (bs "we meet on march 5 a") "t"%char (bs " ")); [repeat constructor|discriminate|reflexivity|cbn; intuition discriminate]|].
  split; [apply (clear_sign (bs " pm") ","%char (bs " bring cake")); [discriminate|reflexivity|reflexivity|cbn; intuition discriminate]|].
  split; [split; [apply (ts_minutes (bs "5") (bs "30") 5); [apply (hs_digits (bs "5")); [repeat constructor|cbn; lia]|repeat constructor|cbn; lia]|]; cbn; lia|].
  split; [left; reflexivity|]. split.
  { intros (abbr & z & (sp & lp & rp & E & B & Hl & _ & [L _] & F) & _). destruct sp as [|b sp]; [|cbn in E; injection E as <- _; inversion B; discriminate].
    destruct Hl as [->| ->]; [|discriminate]. destruct abbr as [|a abbr]; [cbn in L; lia|]. cbn in E. injection E as <- _. inversion F; discriminate. }
  split.
  { intros v Iv. cbn in Iv. destruct Iv as [<-|[<-|[<-|[<-|[]]]]]; apply Alphabet.containsb_ok; vm_compute; reflexivity. }
  split; [apply pair_only_ok; [exact same_me_other|vm_compute; reflexivity]|vm_compute; reflexivity].
Qed.
Example C101_case : let t := Moment (Cal 2024 2 27) 9 15 0 in let text := bs "Away from March 12 through April 3 for fun" in let x := MonthDay None 3 12 None None in let x' := MonthDay None 4 3 None None in
  real_instant t 3 /\ to_lower text = bs "away from " ++ bs "march 12 " ++ bs "through " ++ bs "april 3 " ++ bs "for fun" /\ plain_month_day (bs "march 12 ") x /\ plain_month_day (bs "april 3 ") x' /\
  next_word (bs "through " ++ bs "april 3 " ++ bs "for fun") /\ next_word (bs "for fun") /\ no_weekday_before (bs "away from ") (bs "march 12 " ++ bs "through " ++ bs "april 3 " ++ bs "for fun") /\
  no_weekday_before (bs "away from " ++ bs "march 12 " ++ bs "through ") (bs "april 3 " ++ bs "for fun") /\ In (bs "through") connectors /\ occurs (bs "through") (bs "through ") /\
  only_two strict_env text (ptime_of t 3) middle_endian middle_endian (bs "away from ") (bs "march 12 ") (bs "through ") (bs "april 3 ") /\
  main strict_env sort_stable gwords_init text (ptime_of t 3) = Ret (line (bs "2024-Mar-12 00:00:00 - 2024-Apr-03 00:00:00")).
Proof.
  cbv zeta. split; [inst|]. split; [reflexivity|].
  assert (P : plain_month_day (bs "march 12 ") (MonthDay None 3 12 None None)) by (apply (plain_case (bs "march") 3 (bs "12")); [exists "march"; left; split; [cbn; tauto|reflexivity]|repeat constructor|cbn; lia]).
  assert (P' : plain_month_day (bs "april 3 ") (MonthDay None 4 3 None None)) by (apply (plain_case (bs "april") 4 (bs "3")); [exists "april"; left; split; [cbn; tauto|reflexivity]|repeat constructor|cbn; lia]).
  split; [exact P|]. split; [exact P'|]. split; [apply no_confusion_ok; vm_compute; reflexivity|]. split; [apply no_confusion_ok; vm_compute; reflexivity|].
  split; [apply (no_stems _ _ _ _ P eq_refl); [exact (last_sign (bs "away from") " "%char eq_refl)|vm_compute; reflexivity]|].
  split; [apply (no_stems _ _ _ _ P' eq_refl); [exact (last_sign (bs "away from march 12 through") " "%char eq_refl)|vm_compute; reflexivity]|].
  split; [cbn; tauto|]. split; [exists [], (bs " "); reflexivity|].
  split; [apply two_only_ok; [exact same_me|exact same_me|vm_compute; reflexivity]|vm_compute; reflexivity].
Qed.
(** "to" between the two dates *)
Example C101_to_case : let t := Moment (Cal 2024 2 27) 9 15 0 in let text := bs "Away from Dec 20th to January 3 for fun" in let x := MonthDay None 12 20 None None in let x' := MonthDay None 1 3 None None in
  to_lower text = bs "away from " ++ bs "dec 20th " ++ bs "to " ++ bs "january 3 " ++ bs "for fun" /\ plain_month_day (bs "dec 20th ") x /\ plain_month_day (bs "january 3 ") x' /\ next_word (bs "to " ++ bs "january 3 " ++ bs "for fun") /\
  only_two strict_env text (ptime_of t 3) middle_endian middle_endian (bs "away from ") (bs "dec 20th ") (bs "to ") (bs "january 3 ") /\
  main strict_env sort_stable gwords_init text (ptime_of t 3) = Ret (line (bs "2023-Dec-20 00:00:00 - 2024-Jan-03 00:00:00")).
Proof.
  cbv zeta. split; [reflexivity|]. split.
  { exists [], (bs "dec"), (bs " "), (bs "20th"), (bs " "), [], []. cbn [md_weekday md_month md_day md_to md_year]. split; [reflexivity|]. split; [reflexivity|]. split; [exists "dec"; right; split; [cbn; tauto|left; reflexivity]|].
    split; [apply (pd_digits (bs " ") (bs "20") (bs "th")); [right; right; exists [], (bs " "); split; [reflexivity|]; split; [auto|repeat constructor]|repeat constructor|cbn; lia|right; right; right; right; reflexivity]|].
    split; [repeat constructor|]. split; [discriminate|]. split; reflexivity. }
  split; [apply (plain_case (bs "january") 1 (bs "3")); [exists "january"; left; split; [cbn; tauto|reflexivity]|repeat constructor|cbn; lia]|].
  split; [right; exists (bs "january"), (bs " 3 for fun"); split; [reflexivity|]; left; exists 1, "january"; left; split; [cbn; tauto|reflexivity]|].
  split; [apply two_only_ok; [exact same_me|exact same_me|vm_compute; reflexivity]|vm_compute; reflexivity].
Qed.
