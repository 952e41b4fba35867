(** * LocateFacts: index and text of what each extract function returns; which patterns are non-empty *)
From Verif Require Import Base Regex RegexParse Calendar Components Utils Execute Spec View ParserSpec RegexFacts ExecuteFacts ParserRe MatchFacts FuelFacts.
From Verif Require Import P_CasualDate P_CasualTime P_DayOfWeek P_Deadline P_ISO P_MonthName P_MiddleEndian
  P_Relative P_TimeAgo P_TimeLater P_TimeExpression P_Holiday P_Week Main.
Open Scope string_scope.
Open Scope list_scope.
Open Scope Z_scope.

Definition ok (i : Z) (tx : bytes) (r : result) : Prop := r_index r = i /\ r_text r = tx.
Definition keeps (i : Z) (tx : bytes) (o : outcome result) : Prop := forall r, o = Ret r -> ok i tx r.

Lemma ok_new ref idx tx : ok (u32 idx) tx (res_new ref idx tx). Proof. split; reflexivity. Qed.
Lemma ok_start i tx f r : ok i tx r -> ok i tx (on_start f r). Proof. intros [A B]. split; assumption. Qed.
Lemma ok_end i tx f r : ok i tx r -> ok i tx (on_end f r). Proof. intros [A B]. split; assumption. Qed.
Lemma ok_with_end i tx f r : ok i tx r -> ok i tx (with_end f r). Proof. intros [A B]. split; assumption. Qed.
Lemma ok_valid i tx r : ok i tx r -> ok i tx (makeEndDateValid r). Proof. intros [A B]. split; assumption. Qed.
Lemma ok_tag i tx m r : ok i tx r -> ok i tx (setTag m r).
Proof. intros [A B]. unfold setTag. destruct (r_tags r m); split; assumption. Qed.
Lemma ok_if i tx (b : bool) x y : ok i tx x -> ok i tx y -> ok i tx (if b then x else y).
Proof. destruct b; auto. Qed.

Lemma keeps_ret i tx r : ok i tx r -> keeps i tx (Ret r). Proof. intros H r' E. injection E as <-. exact H. Qed.
Lemma keeps_bind {A} i tx (o : outcome A) f : (forall a, o = Ret a -> keeps i tx (f a)) -> keeps i tx (bind o f).
Proof. intros H r. destruct o as [a| | | |]; cbn [bind]; try discriminate. apply H. reflexivity. Qed.
Lemma keeps_bind_res i tx (o : outcome result) f : keeps i tx o -> (forall a, ok i tx a -> keeps i tx (f a)) -> keeps i tx (bind o f).
Proof. intros K H. apply keeps_bind. intros a E. apply H. apply K. exact E. Qed.
Lemma keeps_with_re i tx p f : (forall r, keeps i tx (f r)) -> keeps i tx (with_re p f).
Proof. intros H. unfold with_re. destruct (compile p); [apply H|discriminate]. Qed.

Ltac ok1 := lazymatch goal with
  | |- ok _ _ (res_new _ _ _) => apply ok_new
  | |- ok _ _ (on_start _ _) => apply ok_start
  | |- ok _ _ (on_end _ _) => apply ok_end
  | |- ok _ _ (with_end _ _) => apply ok_with_end
  | |- ok _ _ (makeEndDateValid _) => apply ok_valid
  | |- ok _ _ (setTag _ _) => apply ok_tag
  | |- ok _ _ (match ?x with _ => _ end) => destruct x
  end.
Ltac ok_all := repeat ok1; try assumption.
Ltac keeps1 :=
  lazymatch goal with
  | |- keeps _ _ (Ret _) => apply keeps_ret; ok_all
  | |- keeps _ _ (@bind result _ _ _) => apply keeps_bind_res; [|let a := fresh in let H := fresh in intros a H]
  | |- keeps _ _ (@bind (ptime * result) _ _ _) => fail
  | |- keeps _ _ (@bind _ _ _ _) => apply keeps_bind; let a := fresh in let H := fresh in intros a H; clear H
  | |- keeps _ _ (with_re _ _) => apply keeps_with_re; intro
  | |- keeps _ _ (match ?x with _ => _ end) => destruct x
  | |- keeps _ _ Unmodelled => discriminate
  | |- keeps _ _ (Throw _) => discriminate
  | |- keeps _ _ (UB _) => discriminate
  | |- keeps _ _ ?t => let h := head_of t in unfold h
  end.
Ltac keeps_all := repeat (cbv zeta beta; keeps1).

Lemma keeps_imply_ymd i tx d r : ok i tx r -> keeps i tx (imply_ymd d r).
Proof. intros H. keeps_all. Qed.

Definition whole (m : mres) : nat := 0%nat.
Definition after_lead (m : mres) : nat := List.length (grp m 1).

Lemma grp0 m : grp m 0 = m_str m. Proof. reflexivity. Qed.

Ltac locate := intros r e g tx m ref idx g' res C S H; cbn [p_extract] in H; unfold pure_extract in H; apply (f_equal snd) in H;
  cbn [snd] in H; cut (ok (u32 idx) (m_str m) res); [intros [? ?]; auto|];
  revert H; generalize res; fold (keeps (u32 idx) (m_str m)).

Lemma locates_pure drop pat f :
  (forall r e g tx m ref idx, compile pat = Some r -> search true r tx = Some m ->
     keeps (u32 idx) (skipn (drop m) (m_str m)) (f e g tx m ref idx)) ->
  locates drop {| p_pattern := pat; p_extract := pure_extract f |}.
Proof.
  intros H r e g tx m ref idx g' res C S X. cbn [p_extract] in X. unfold pure_extract in X. injection X as _ X.
  exact (H r e g tx m ref idx C S _ X).
Qed.

Lemma locates_casual_date : locates whole casual_date.
Proof.
  apply locates_pure. intros. unfold casual_date_extract, whole, skipn. cbv zeta. apply keeps_bind. intros [tmp res] E.
  assert (O : ok (u32 idx) (m_str m) res).
  { clear H H0. rewrite grp0 in E. revert E.
    repeat match goal with |- context [if ?b then _ else _] => destruct b end;
      repeat (match goal with |- bind ?x _ = _ -> _ => destruct x; cbn [bind]; try discriminate end);
      try (intros E; injection E as _ <-; ok_all).
    all: unfold with_re; destruct (compile _); [|discriminate]; destruct (search _ _ _);
      repeat match goal with |- context [if ?b then _ else _] => destruct b end;
      repeat (match goal with |- bind ?x _ = _ -> _ => destruct x; cbn [bind]; try discriminate end);
      intros E; injection E as _ <-; ok_all. }
  cbv beta iota. keeps_all.
Qed.
Lemma locates_casual_time : locates whole casual_time.
Proof. apply locates_pure. intros. unfold casual_time_extract, whole, skipn. rewrite grp0. keeps_all. Qed.
Lemma locates_deadline : locates whole deadline.
Proof. apply locates_pure. intros. unfold deadline_extract, whole, skipn. rewrite grp0. keeps_all. Qed.
Lemma locates_iso : locates whole iso.
Proof. apply locates_pure. intros. unfold iso_extract, whole, skipn. rewrite grp0. keeps_all. Qed.
Lemma locates_relative : locates whole relative.
Proof. apply locates_pure. intros. unfold relative_extract, whole, skipn. rewrite grp0. keeps_all. Qed.
Lemma locates_holiday : locates whole holiday.
Proof. apply locates_pure. intros. unfold holiday_extract, whole, skipn. rewrite grp0. keeps_all. Qed.
Lemma locates_middle_endian : locates whole middle_endian.
Proof. apply locates_pure. intros. unfold middle_endian_extract, whole, skipn. rewrite grp0. keeps_all. Qed.
Lemma locates_day_of_week : locates whole day_of_week.
Proof. intros r e g tx m ref idx g' res C. rewrite day_of_week_compile in C. discriminate. Qed.
Lemma locates_time_ago : locates whole time_ago.
Proof.
  apply locates_pure. intros. unfold time_ago_extract, whole, skipn. rewrite grp0. keeps_all.
Qed.
Lemma keeps_substr i tx n f : (forall t, t = skipn n tx -> keeps i (skipn n tx) (f t)) ->
  keeps i (skipn n tx) (bind (substr_from tx n) f).
Proof.
  intros H. unfold substr_from. destruct (Nat.ltb _ _); cbn [bind]; [discriminate|]. apply H. reflexivity.
Qed.
Lemma locates_month_name : locates after_lead month_name.
Proof.
  apply locates_pure. intros. unfold month_name_extract, after_lead. rewrite grp0. apply keeps_substr. intros t Et.
  rewrite <- Et. keeps_all.
Qed.
Lemma locates_time_expression : locates after_lead time_expression.
Proof.
  apply locates_pure. intros. unfold time_expression_extract, after_lead. rewrite grp0. apply keeps_substr. intros t Et.
  rewrite <- Et. keeps_all.
Qed.
Lemma locates_time_later : locates after_lead time_later.
Proof.
  apply locates_pure. intros. unfold time_later_extract, after_lead. rewrite grp0. apply keeps_substr. intros t Et.
  rewrite <- Et. keeps_all.
Qed.
Lemma locates_week : locates whole week.
Proof.
  intros r e g tx m ref idx g' res C S H. cbn [p_extract week] in H. unfold week_extract in H.
  destruct (pt_date ref) as [tmp| | | |]; try (injection H as _ H; discriminate).
  destruct (week_count g m) as [g1 o]. injection H as _ H.
  change (ok (u32 idx) (m_str m) res). revert res H. fold (keeps (u32 idx) (m_str m)).
  match goal with |- forall res, ?o = Ret res -> _ => change (keeps (u32 idx) (m_str m) o) end. rewrite ?grp0. keeps_all.
Qed.

(** ** Lists of parsers *)
Definition all_parsers : list parser := parsers ++ [relative].

Lemma nonempty_all : forall p, In p all_parsers -> nonempty_pattern p.
Proof.
  intros p I r C. cbn in I.
  repeat destruct I as [<-|I]; try contradiction;
    rewrite ?casual_time_compile, ?deadline_compile, ?day_of_week_compile, ?casual_date_compile, ?middle_endian_compile,
      ?time_later_compile, ?month_name_compile, ?time_ago_compile, ?time_expression_compile, ?iso_compile, ?holiday_compile,
      ?week_compile, ?relative_compile in C; try discriminate; apply some_inj in C; subst r;
    apply Nat.leb_le; vm_compute; reflexivity.
Qed.

Lemma ends_all_parsers e ref : forall p, In p all_parsers -> p <> day_of_week ->
  forall g tx m idx g', p_extract p e g tx m ref idx <> (g', OutOfFuel).
Proof.
  intros p I ND g tx m idx g' X. apply (f_equal snd) in X. cbn in I.
  repeat destruct I as [<-|I]; try contradiction; try congruence; cbn [p_extract casual_date casual_time deadline iso month_name
    middle_endian time_ago time_later time_expression holiday relative] in X; unfold pure_extract in X; cbn [snd] in X; revert X;
  first [apply ends_casual_time|apply ends_deadline|apply ends_casual_date|apply ends_middle_endian|apply ends_time_later
        |apply ends_month_name|apply ends_time_ago|apply ends_time_expression|apply ends_iso|apply ends_holiday|apply ends_relative|idtac].
  cbn [p_extract week]. intros X. destruct (week_extract e g tx m ref idx) as [g1 o] eqn:W. cbn [snd] in X. subst o.
  exact (ends_week _ _ _ _ _ _ _ W).
Qed.

Lemma lead_time_later tx m : search true time_later_re tx = Some m -> grp m 1 = [].
Proof.
  intros S. destruct (search_split _ _ _ _ S) as (_ & _ & _ & _ & _ & F & _).
  destruct (grp_ok _ _ m 1 F) as [E|(a & I & L)]; [discriminate|exact E|].
  assert (A : a = RWb false).
  { change (groups time_later_re) with ((1%nat, RWb false) :: tl (groups time_later_re)) in I.
    destruct I as [E|I]; [injection E as <-; reflexivity|exfalso].
    revert I. vm_compute. intuition discriminate. }
  subst a. exact L.
Qed.
Lemma locates_time_later0 : locates whole time_later.
Proof.
  intros r e g tx m ref idx g' res C S X. destruct (locates_time_later _ _ _ _ _ _ _ _ _ C S X) as [A B]. split; [exact A|].
  rewrite time_later_compile in C. apply some_inj in C. subst r. unfold after_lead in B. rewrite (lead_time_later _ _ S) in B. exact B.
Qed.

Lemma locates_all : forall p, In p all_parsers -> exists drop, locates drop p.
Proof.
  intros p I. cbn in I.
  repeat destruct I as [<-|I]; try contradiction; eexists;
    eauto using locates_casual_time, locates_deadline, locates_day_of_week, locates_casual_date, locates_middle_endian,
      locates_time_later, locates_month_name, locates_time_ago, locates_time_expression, locates_iso, locates_holiday, locates_week,
      locates_relative.
Qed.
Lemma locates_whole : forall p, In p all_parsers -> p <> month_name -> p <> time_expression -> locates whole p.
Proof.
  intros p I N1 N2. cbn in I.
  repeat destruct I as [<-|I]; try contradiction; try congruence; 
    auto using locates_casual_time, locates_deadline, locates_day_of_week, locates_casual_date, locates_middle_endian,
      locates_time_later0, locates_time_ago, locates_iso, locates_holiday, locates_week, locates_relative.
Qed.
