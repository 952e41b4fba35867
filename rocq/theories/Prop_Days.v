(** * The answers of the program to the names of holidays (C80) *)
From Verif Require Import Base Regex RegexParse Calendar Components Utils Execute Spec View ParserSpec PhraseSpec CalendarFacts RegexFacts ResultFacts
  ExecuteFacts ParserRe HolidayFacts Main MainFacts Alphabet.
From Verif Require Import P_CasualDate P_CasualTime P_DayOfWeek P_Deadline P_ISO P_MonthName P_MiddleEndian
  P_TimeAgo P_TimeLater P_TimeExpression P_Holiday P_Week Prop_Execute Prop_Casual Prop_Holiday Prop_Refine Prop_Main Prop_Tags Prop_Answers Prop_Replies.
From Coq Require Import ZifyBool ZifyNat.
Open Scope string_scope.
Open Scope list_scope.
Open Scope Z_scope.

Definition not_holiday : list parser := [casual_time; deadline; day_of_week; casual_date; middle_endian; time_later; month_name; time_ago; time_expression; iso; week].
Definition blank_list : list ascii := Eval vm_compute in filter is_space all_ascii.
Lemma blank_in b : is_space b = true -> In b blank_list.
Proof.
  intros E. assert (H : forall c, (negb (is_space c) || existsb (Ascii.eqb c) blank_list) = true) by (apply forall_ascii; vm_compute; reflexivity).
  specialize (H b). rewrite E in H. cbn [negb orb] in H. apply existsb_exists in H as (d & Id & Q). apply Ascii.eqb_eq in Q. subst. exact Id.
Qed.
Lemma holiday_quiet : forallb (fun x => forallb (fun b => forallb (silentb (bs x ++ [b] ++ bs "day")) not_holiday) blank_list) holiday_texts = true.
Proof. vm_compute. reflexivity. Qed.
Lemma holiday_low : forallb (fun x => if list_eq_dec ascii_dec (to_lower (bs x)) (bs x) then true else false) holiday_texts = true.
Proof. vm_compute. reflexivity. Qed.
Lemma holiday_short : forallb (fun x => Z.of_nat (List.length (bs x)) <? 100) holiday_texts = true.
Proof. vm_compute. reflexivity. Qed.
Lemma low_blank b : is_space b = true -> lower b = b.
Proof. intros E. assert (H : forall c, (negb (is_space c) || Ascii.eqb (lower c) c) = true) by (apply forall_ascii; vm_compute; reflexivity). specialize (H b). rewrite E in H. apply Ascii.eqb_eq. exact H. Qed.
Lemma in_holiday_parsers : In holiday parsers. Proof. unfold parsers. do 10 right. left. reflexivity. Qed.
Lemma holiday_answer e sortf text ref res x b : sane e -> is_sort sortf -> In x holiday_texts -> is_space b = true -> to_lower text = bs x ++ [b] ++ bs "day" ->
  alone e holiday text ref = Ret [res] -> r_text res = to_lower text -> r_index res = 0 -> main e sortf gwords_init text ref = shown (toDate res).
Proof.
  intros He Hs I Hb E X Tx Ix.
  apply (whole_answer e sortf text ref [casual_time; deadline; day_of_week; casual_date; middle_endian; time_later; month_name; time_ago; time_expression; iso] holiday [week] res eq_refl); auto.
  - assert (Ll : List.length text = List.length (to_lower text)) by (unfold to_lower; rewrite map_length; reflexivity). rewrite Ll, E, !app_length.
    pose proof (proj1 (forallb_forall _ _) holiday_short _ I) as Q. cbv beta in Q. cbn [List.length bs list_ascii_of_string]. lia.
  - pose proof (proj1 (forallb_forall _ _) holiday_quiet _ I) as Q. cbv beta in Q. apply (proj1 (forallb_forall _ _)) with (x := b) in Q; [|apply blank_in; exact Hb].
    apply silentb_ok in Q. change (_ ++ [week]) with not_holiday. eapply Forall_impl; [|exact Q]. intros p Sp. apply silent_minor.
    apply (silent_low (bs x ++ [b] ++ bs "day")); [|exact Sp]. rewrite E. unfold to_lower at 1. rewrite !map_app. fold (to_lower (bs x)).
    pose proof (proj1 (forallb_forall _ _) holiday_low _ I) as Lw. cbv beta in Lw. destruct (list_eq_dec ascii_dec (to_lower (bs x)) (bs x)) as [-> |]; [|discriminate].
    cbn [map]. rewrite low_blank by exact Hb. reflexivity.
Qed.
Lemma day_denotes p c : date_certain p c -> certain Hour 0 p -> certain Min 0 p -> untouched [Sec; TzOffset] p -> denotes p (Moment c 0 0 0).
Proof.
  intros (D1 & D2 & D3) Dh Dm U. unfold untouched in U. rewrite Forall_forall in U. unfold denotes.
  assert (V : forall f, In f [Sec; TzOffset] -> api_get f p = 0) by (intros f I; apply U; exact I).
  repeat split; [exact (certain_value _ _ _ D1)|exact (certain_value _ _ _ D2)|exact (certain_value _ _ _ D3)|exact (certain_value _ _ _ Dh)|exact (certain_value _ _ _ Dm)|apply (V Sec)]; cbn; tauto.
Qed.

(** C80.  A holiday's name followed by "day": the program answers with that day of the reference year, at midnight. *)
Theorem C80_holidays : forall e sortf text t us x r b, sane e -> is_sort sortf -> real_instant t us ->
  In (x, r) plain_names -> is_space b = true -> to_lower text = bs x ++ [b] ++ bs "day" ->
  exists c, real_date c /\ falls_on r (cy (mdate t)) c /\ main e sortf gwords_init text (ptime_of t us) = Ret (line (bs (written (Moment c 0 0 0)))).
Proof.
  intros e sortf text t us x r b He Hs H I Hb E.
  destruct (C30_holiday_dates e gwords_init text t us x r b H I Hb E) as (res & X & Tx & Ix & En & c & Rc & F & D & _ & Dh & Dm & U).
  exists c. split; [exact Rc|]. split; [exact F|].
  rewrite (holiday_answer e sortf text (ptime_of t us) res x b); auto; [|apply in_or_app; left; exact (in_map fst _ _ I)].
  apply (shown_moment e holiday text (ptime_of t us)); auto using day_denotes, midnight_real, in_holiday_parsers.
Qed.
Print Assumptions C80_holidays.
Example C80_case : let t := Moment (Cal 2024 2 20) 5 6 7 in sane env0 /\ is_sort sort_other /\ real_instant t 1 /\ In ("thanksgiving", NthDay 4 4 11) plain_names /\
  to_lower (bs "ThanksGiving Day") = bs "thanksgiving" ++ [" "%char] ++ bs "day" /\ falls_on (NthDay 4 4 11) 2024 (Cal 2024 11 28) /\
  main env0 sort_other gwords_init (bs "ThanksGiving Day") (ptime_of t 1) = Ret (line (bs "2024-Nov-28 00:00:00")) /\
  main env0 sort_stable gwords_init (bs "Martin Luther King Jr day") (ptime_of t 1) = Ret (line (bs "2024-Jan-15 00:00:00")).
Proof.
  cbv zeta. split; [apply benign_sane; split; [exists "x"%char; reflexivity|split; intros; reflexivity]|]. split; [exact other_is_sort|]. split; [inst|]. split; [cbn; tauto|]. split; [reflexivity|]. split; [repeat split; vm_compute; congruence|].
  split; vm_compute; reflexivity.
Qed.
