(** * FuelFacts: the model's loop bounds are never exhausted *)
From Verif Require Import Base Regex RegexParse Calendar Components Utils Execute Spec CalendarFacts RegexFacts ExecuteFacts ParserRe.
From Verif Require Import P_CasualDate P_CasualTime P_DayOfWeek P_Deadline P_ISO P_MonthName P_MiddleEndian
  P_Relative P_TimeAgo P_TimeLater P_TimeExpression P_Holiday P_Week.
From Coq Require Import ZifyBool ZifyNat ZifyN.
Open Scope string_scope.
Open Scope list_scope.
Open Scope Z_scope.
Ltac Zify.zify_post_hook ::= Z.div_mod_to_equations.

Definition ends {A} (o : outcome A) : Prop := o <> OutOfFuel.

Lemma ends_ret {A} (a : A) : ends (Ret a). Proof. discriminate. Qed.
Lemma ends_throw {A} x : @ends A (Throw x). Proof. discriminate. Qed.
Lemma ends_ub {A} x : @ends A (UB x). Proof. discriminate. Qed.
Lemma ends_unm {A} : @ends A Unmodelled. Proof. discriminate. Qed.
Lemma ends_bind {A B} (o : outcome A) (f : A -> outcome B) : ends o -> (forall a, ends (f a)) -> ends (bind o f).
Proof. intros H F. destruct o; cbn; try discriminate; [apply F|congruence]. Qed.
Lemma ends_if {A} (b : bool) (x y : outcome A) : ends x -> ends y -> ends (if b then x else y).
Proof. destruct b; auto. Qed.
Lemma ends_ymd d : ends (ymd d).
Proof. unfold ymd. apply ends_if; [|apply ends_unm]. destruct (from_day_number d) as [[y m] dd]. apply ends_if; [apply ends_ret|apply ends_throw]. Qed.
Lemma ends_with_re {A} p (f : re -> outcome A) : (forall r, compile p = Some r -> ends (f r)) -> ends (with_re p f).
Proof. intros H. unfold with_re. destruct (compile p) as [r|]; [apply H; reflexivity|apply ends_throw]. Qed.
Lemma ends_stoi t : ends (stoi t).
Proof.
  unfold stoi. destruct (match skip_spaces t with [] => _ | _ => _ end) as [n t2].
  destruct (read_digits t2 0 0) as [v [|k]]; [apply ends_throw|]. apply ends_if; [apply ends_throw|apply ends_ret].
Qed.
Lemma ends_substr_from t n : ends (substr_from t n).
Proof. apply ends_if; [apply ends_throw|apply ends_ret]. Qed.
Lemma ends_mk_date y m d : ends (mk_date y m d).
Proof. apply ends_if; [apply ends_ret|apply ends_throw]. Qed.

Lemma d_dow_cases dn : d_dow dn = Ret ((dn + 1) mod 7) \/ d_dow dn = Throw OutOfRange \/ d_dow dn = Unmodelled.
Proof.
  destruct (Z_le_dec LO dn) as [H1|H1]; [destruct (Z_le_dec dn HI) as [H2|H2]|].
  - left. apply d_dow_dn. lia.
  - unfold d_dow. destruct (Z_lt_dec dn 20000000) as [H|H].
    + rewrite ymd_out by (unfold LO, HI in *; lia). auto.
    + unfold ymd. replace (_ && _) with false by lia. auto.
  - unfold d_dow. destruct (Z_le_dec 0 dn) as [H|H].
    + rewrite ymd_out by (unfold LO, HI in *; lia). auto.
    + unfold ymd. replace (_ && _) with false by lia. auto.
Qed.

Lemma ends_dow_walk step w dn : 0 <= w < 7 -> step = 1 \/ step = -1 -> ends (dow_walk 7 step w dn).
Proof.
  intros Hw Hs.
  assert (G : forall n i, dow_walk n step w (dn + step * i) = OutOfFuel ->
    forall j, i <= j < i + Z.of_nat n -> (dn + step * j + 1) mod 7 <> w).
  { induction n as [|n IH]; intros i H j Hj; [lia|]. cbn [dow_walk] in H.
    destruct (d_dow_cases (dn + step * i)) as [E|[E|E]]; rewrite E in H; cbn [bind] in H; try discriminate.
    destruct (((dn + step * i + 1) mod 7) =? w) eqn:Ew; [discriminate|].
    replace (dn + step * i + step) with (dn + step * (i + 1)) in H by lia.
    destruct (Z.eq_dec j i) as [->|Hne]; [lia|]. apply (IH _ H). lia. }
  intros H. specialize (G 7%nat 0). replace (dn + step * 0) with dn in G by lia. specialize (G H).
  destruct (some_weekday step w dn Hw Hs) as (i & Hi & Ei). exact (G i ltac:(lia) Ei).
Qed.
Lemma ends_add_months d n : ends (add_months d n).
Proof. unfold add_months. apply ends_bind; [apply ends_ymd|]. intros [[y m] dd]. apply ends_if; [apply ends_unm|apply ends_mk_date]. Qed.

(** substituting in a text *)
Lemma ends_replace_loop r fmt : (1 <= min_len r)%nat -> forall fuel prev t, (List.length t < fuel)%nat ->
  ends (regex_replace_loop fuel r fmt prev t).
Proof.
  intros Hr. induction fuel as [|fuel IH]; intros prev t Hf; [lia|]. cbn [regex_replace_loop].
  destruct (search_from false r prev t 0) as [m|] eqn:S; [|apply ends_ret].
  destruct (search_from_sound _ _ _ _ _ _ S) as (pre & post & caps & E & P & _ & _ & _ & L & _).
  pose proof (min_len_ok _ _ _ L). rewrite P. cbn [Nat.add].
  apply ends_bind; [|intros; apply ends_ret]. apply IH. rewrite skipn_length.
  apply (f_equal (@List.length _)) in E. rewrite !app_length in E. lia.
Qed.
Lemma ends_replace r fmt t : (1 <= min_len r)%nat -> ends (regex_replace r fmt t).
Proof. intros H. apply ends_replace_loop; [exact H|lia]. Qed.
Lemma ends_ordinal t : ends (argToOrdinalValue t).
Proof.
  apply ends_with_re. intros r1 C1. apply ends_bind.
  { apply ends_replace. vm_compute in C1. apply some_inj in C1. subst r1. cbn. lia. }
  intros v1. apply ends_with_re. intros r2 C2. apply ends_bind; [|intros; apply ends_ret].
  apply ends_replace. vm_compute in C2. apply some_inj in C2. subst r2. cbn. lia.
Qed.

(** unit fragments *)
Lemma time_unit_nonempty : (1 <= min_len time_unit_re)%nat.
Proof. vm_compute. lia. Qed.
Lemma ends_collect m f : ends (collectDateTimeFragment m f).
Proof.
  unfold collectDateTimeFragment. apply ends_bind.
  - unfold fragment_amount. destruct (tbl_find _ _); [apply ends_ret|]. repeat apply ends_if; try apply ends_ret.
    apply ends_bind; [apply ends_stoi|]. intros; apply ends_ret.
  - intros n. destruct (fragment_unit _); apply ends_ret.
Qed.
Lemma ends_extract_loop : forall fuel rem f, (List.length rem < fuel)%nat -> ends (extract_loop fuel time_unit_re rem f).
Proof.
  induction fuel as [|fuel IH]; intros rem f Hf; [lia|]. cbn [extract_loop].
  destruct (search true time_unit_re rem) as [m|] eqn:S; [|apply ends_ret].
  destruct (search_bounds _ _ _ time_unit_nonempty S) as [B1 B2].
  apply ends_bind; [apply ends_collect|]. intros f'. rewrite substr_from_ok by lia. cbn [bind].
  apply IH. rewrite skipn_length. lia.
Qed.
Theorem ends_fragments t : ends (extractDateTimeUnitFragments t).
Proof.
  apply ends_with_re. intros r C. rewrite time_unit_compile in C. apply some_inj in C. subst r.
  apply ends_extract_loop. lia.
Qed.

Ltac head_of t := lazymatch t with ?f _ => head_of f | _ => t end.
Ltac ends1 :=
  lazymatch goal with
  | |- forall _, _ => intro
  | |- ends (Ret _) => apply ends_ret
  | |- ends (Throw _) => apply ends_throw
  | |- ends (UB _) => apply ends_ub
  | |- ends Unmodelled => apply ends_unm
  | |- ends (bind _ _) => apply ends_bind
  | |- ends (ymd _) => apply ends_ymd
  | |- ends (stoi _) => apply ends_stoi
  | |- ends (substr_from _ _) => apply ends_substr_from
  | |- ends (mk_date _ _ _) => apply ends_mk_date
  | |- ends (add_months _ _) => apply ends_add_months
  | |- ends (add_years _ _) => apply ends_add_months
  | |- ends (dow_walk 7 _ _ _) => apply ends_dow_walk; [lia|auto]
  | |- ends (argToOrdinalValue _) => apply ends_ordinal
  | |- ends (extractDateTimeUnitFragments _) => apply ends_fragments
  | |- ends (with_re _ _) => apply ends_with_re; let r := fresh in let C := fresh in intros r C; clear C
  | |- ends (match ?x with _ => _ end) => destruct x
  | |- ends ?t => let h := head_of t in unfold h
  end.
Ltac ends_all := repeat (cbv zeta beta; ends1).

Lemma ends_casual_date e g tx m ref i : ends (casual_date_extract e g tx m ref i).
Proof. unfold casual_date_extract. ends_all. Qed.
Lemma ends_casual_time e g tx m ref i : ends (casual_time_extract e g tx m ref i).
Proof. unfold casual_time_extract. ends_all. Qed.
Lemma ends_iso e g tx m ref i : ends (iso_extract e g tx m ref i).
Proof. unfold iso_extract. ends_all. Qed.
Lemma ends_month_name e g tx m ref i : ends (month_name_extract e g tx m ref i).
Proof. unfold month_name_extract. ends_all. Qed.
Lemma ends_middle_endian e g tx m ref i : ends (middle_endian_extract e g tx m ref i).
Proof. unfold middle_endian_extract. ends_all. Qed.
Lemma ends_deadline e g tx m ref i : ends (deadline_extract e g tx m ref i).
Proof. unfold deadline_extract. ends_all. Qed.
Lemma ends_relative e g tx m ref i : ends (relative_extract e g tx m ref i).
Proof. unfold relative_extract. ends_all. Qed.
Lemma ends_holiday e g tx m ref i : ends (holiday_extract e g tx m ref i).
Proof. unfold holiday_extract. ends_all. Qed.
Lemma ends_frag_loop c s f : forall ks dt, ends (frag_loop c s f ks dt).
Proof.
  induction ks as [|k ks IH]; intros dt; cbn [frag_loop]; [apply ends_ret|].
  destruct (f k) as [v|]; [|apply IH]. apply ends_bind; [|intros; apply IH].
  assert (F : ends (frag_shift s k v dt)) by ends_all.
  destruct c; [|exact F]. unfold catch_oor. destruct (frag_shift s k v dt) as [| [] | | |]; try discriminate. congruence.
Qed.
Lemma ends_time_ago e g tx m ref i : ends (time_ago_extract e g tx m ref i).
Proof. unfold time_ago_extract. repeat (cbv zeta beta; first [apply ends_frag_loop|ends1]). Qed.
Lemma ends_time_later e g tx m ref i : ends (time_later_extract e g tx m ref i).
Proof. unfold time_later_extract. repeat (cbv zeta beta; first [apply ends_frag_loop|ends1]). Qed.
Lemma ends_time_expression e g tx m ref i : ends (time_expression_extract e g tx m ref i).
Proof. unfold time_expression_extract. ends_all. Qed.
Lemma ends_week e g tx m ref i g' : week_extract e g tx m ref i <> (g', OutOfFuel).
Proof.
  unfold week_extract. pose proof (ends_ymd (pt_daynum ref)) as H. 
  assert (D : ends (pt_date ref)) by ends_all. destruct (pt_date ref); try discriminate; [|congruence].
  destruct (week_count g m) as [g1 o] eqn:W.
  assert (O : ends o).
  { unfold week_count in W. destruct (is_nil (grp m 3)); cbn [negb] in W.
    - destruct (is_nil (grp m 4)); cbn [negb] in W; [injection W as _ <-; apply ends_ret|].
      destruct (gw_index g (grp m 4)); injection W as _ <-; apply ends_ret.
    - injection W as _ <-; apply ends_stoi. }
  intros E. apply (f_equal snd) in E. cbn [snd] in E. revert E. apply ends_bind; [exact O|]. intros n. ends_all.
Qed.
