(** * Tags of parser results (C73): a tag names the parser that produced the result. *)
From Verif Require Import Base Regex RegexParse Calendar Components Utils Execute Spec View ParserSpec CalendarCycle CalendarFacts RegexFacts ResultFacts
  ExecuteFacts ParserRe MatchFacts FuelFacts LocateFacts HistoryFacts ParserFacts MainFacts.
From Verif Require Import P_CasualDate P_CasualTime P_DayOfWeek P_Deadline P_ISO P_MonthName P_MiddleEndian P_Relative
  P_TimeAgo P_TimeLater P_TimeExpression P_Holiday P_Week Prop_Execute.
From Coq Require Import ZifyBool ZifyNat.
Open Scope string_scope.
Open Scope list_scope.
Open Scope Z_scope.

(** ** Vocabulary: the tag that belongs to each parser (utils.hpp:21-39); weeks have none. *)
Definition own_tag : list (parser * option modifier) :=
  [(casual_date, Some TCasualDate); (casual_time, Some TCasualTime); (day_of_week, Some TDayOfWeek); (deadline, Some TDeadline); (iso, Some TISO);
   (month_name, Some TMonthName); (middle_endian, Some TMiddleEndian); (relative, Some TRelative); (time_ago, Some TTimeAgo); (time_later, Some TTimeLater);
   (time_expression, Some TTimeExpression); (holiday, Some THolidays); (week, None)].

Definition tagged (t : modifier) (r : result) : Prop := forall m, r_tags r m = if mod_eqb m t then Some true else None.
Definition untagged (r : result) : Prop := forall m, r_tags r m = None.
Definition post (Q : result -> Prop) (o : outcome result) : Prop := forall r, o = Ret r -> Q r.
(** tagged, or a bare result (which execute drops) *)
Definition good (t : modifier) (r : result) : Prop := tagged t r \/ (untagged r /\ hasPossibleDates r = false).

Lemma post_ret (Q : result -> Prop) r : Q r -> post Q (Ret r).
Proof. intros H x E. apply ret_inv in E. subst. exact H. Qed.
Lemma post_bind {A} Q (o : outcome A) f : (forall a, o = Ret a -> post Q (f a)) -> post Q (bind o f).
Proof. intros H r E. apply bind_ret in E as (a & Ea & E). exact (H a Ea r E). Qed.
Lemma post_res Q1 Q (o : outcome result) f : post Q1 o -> (forall a, Q1 a -> post Q (f a)) -> post Q (bind o f).
Proof. intros H1 H r E. apply bind_ret in E as (a & Ea & E). exact (H a (H1 a Ea) r E). Qed.
Lemma post_no {Q : result -> Prop} {o : outcome result} : (forall r, o <> Ret r) -> post Q o.
Proof. intros H r E. destruct (H r E). Qed.
Lemma tagged_set t r : untagged r -> tagged t (setTag t r).
Proof. intros U m. unfold setTag. rewrite (U t). cbn [r_tags with_tags]. destruct (mod_eqb m t); [reflexivity|apply U]. Qed.
Lemma good_bare t ref idx tx : good t (res_new ref idx tx).
Proof. right. split; [intros m; reflexivity|reflexivity]. Qed.
Lemma good_set t r : untagged r -> good t (setTag t r).
Proof. intros U. left. apply tagged_set. exact U. Qed.
Lemma new_untagged ref idx tx : untagged (res_new ref idx tx).
Proof. intros m. reflexivity. Qed.
Lemma start_untagged f r : untagged r -> untagged (on_start f r).
Proof. intros U m. apply U. Qed.
Lemma end_untagged f r : untagged r -> untagged (on_end f r).
Proof. intros U m. apply U. Qed.
Lemma valid_untagged r : untagged r -> untagged (makeEndDateValid r).
Proof. intros U m. apply U. Qed.
Lemma with_end_untagged p r : untagged r -> untagged (with_end p r).
Proof. intros U m. apply U. Qed.
Lemma start_tagged t f r : tagged t r -> tagged t (on_start f r).
Proof. intros U m. apply U. Qed.
Lemma end_tagged t f r : tagged t r -> tagged t (on_end f r).
Proof. intros U m. apply U. Qed.
Lemma valid_tagged t r : tagged t r -> tagged t (makeEndDateValid r).
Proof. intros U m. apply U. Qed.
Lemma good_tagged t r : tagged t r -> good t r.
Proof. left. assumption. Qed.
Create HintDb tags.
#[local] Hint Resolve new_untagged start_untagged end_untagged valid_untagged with_end_untagged start_tagged end_tagged valid_tagged tagged_set good_set good_bare good_tagged : tags.
Ltac walk := repeat (cbv zeta; first
  [ apply post_ret
  | match goal with
    | |- post _ (if ?b then _ else _) => destruct b
    | |- post _ (match ?x with _ => _ end) => destruct x; try (intros ? ?; discriminate)
    end
  | apply post_bind; intros ? _ ]).
Ltac tag_done := repeat match goal with |- context [if ?b then _ else _] => destruct b end; auto 20 with tags.

Lemma imply_untagged d r : untagged r -> post untagged (imply_ymd d r).
Proof. intros U. unfold imply_ymd. walk. tag_done. Qed.
Lemma imply_tagged t d r : tagged t r -> post (tagged t) (imply_ymd d r).
Proof. intros U. unfold imply_ymd. walk. tag_done. Qed.

Lemma casual_time_tags e g tx m ref idx : post (tagged TCasualTime) (casual_time_extract e g tx m ref idx).
Proof. unfold casual_time_extract. walk. apply tagged_set, start_untagged. tag_done. Qed.
Lemma holiday_tags e g tx m ref idx : post (tagged THolidays) (holiday_extract e g tx m ref idx).
Proof.
  unfold holiday_extract. cbv zeta. apply (post_res untagged).
  - unfold holiday_date. assert (F : forall d k r, untagged r -> post untagged (set_from_date d k r)) by (intros; unfold set_from_date; walk; tag_done).
    repeat (apply post_bind; intros ? _). repeat (match goal with |- post _ (if ?b then _ else _) => destruct b end);
      try (apply post_bind; intros ? _); try (apply F); try apply post_ret; tag_done.
  - intros. walk. tag_done.
Qed.
Lemma iso_tags e g tx m ref idx : post (good TISO) (iso_extract e g tx m ref idx).
Proof.
  unfold iso_extract. cbv zeta. apply post_bind; intros mo _. apply post_bind; intros d _. destruct ((12 <? mo) || (mo <? 1) || (31 <? d) || (d <? 1)); [apply post_ret; tag_done|].
  apply post_bind; intros y _. apply (post_res untagged).
  - destruct (is_nil (grp m 5)); [apply post_ret; tag_done|]. apply post_bind; intros h _. apply post_bind; intros mi _. apply (post_res untagged); [|intros; walk; tag_done].
    walk; tag_done.
  - intros. walk. tag_done.
Qed.
Lemma month_name_tags e g tx m ref idx : post (good TMonthName) (month_name_extract e g tx m ref idx).
Proof. unfold month_name_extract. walk; tag_done. Qed.
Lemma middle_endian_tags e g tx m ref idx : post (good TMiddleEndian) (middle_endian_extract e g tx m ref idx).
Proof.
  unfold middle_endian_extract. cbv zeta. apply post_bind; intros d _. match goal with |- post _ (if ?b then _ else _) => destruct b end; [apply post_ret; tag_done|].
  destruct (middle_endian_year m); try (apply post_ret; tag_done). apply post_bind; intros y _. apply (post_res untagged).
  - walk; tag_done.
  - intros. walk. tag_done.
Qed.
Lemma frag_finish_tags f d t r : untagged r -> post untagged (frag_finish f d t r).
Proof. intros U. unfold frag_finish. apply (post_res untagged); [walk; tag_done|]. intros. walk; tag_done. Qed.
Lemma time_ago_tags e g tx m ref idx : post (good TTimeAgo) (time_ago_extract e g tx m ref idx).
Proof.
  unfold time_ago_extract. cbv zeta. apply post_bind; intros st _. destruct st; [apply post_ret; tag_done|]. apply post_bind; intros f _. apply post_bind; intros d0 _.
  apply post_bind; intros [d t] _. apply (post_res untagged); [apply frag_finish_tags; tag_done|]. intros. walk. tag_done.
Qed.
Lemma time_later_tags e g tx m ref idx : post (good TTimeLater) (time_later_extract e g tx m ref idx).
Proof.
  unfold time_later_extract. cbv zeta. apply post_bind; intros tt _. apply post_bind; intros st _. destruct st; [apply post_ret; tag_done|]. apply post_bind; intros f _. apply post_bind; intros d0 _.
  apply post_bind; intros [d t] _. apply (post_res untagged); [apply frag_finish_tags; tag_done|]. intros. walk. tag_done.
Qed.
Lemma relative_tags e g tx m ref idx : post (good TRelative) (relative_extract e g tx m ref idx).
Proof.
  unfold relative_extract. cbv zeta. apply post_bind; intros d _. destruct (relative_amount g (grp m 3)) as [num|]; [|apply post_ret; tag_done].
  destruct (beq (grp m 2) (bs "this")).
  - destruct (is_nil (grp m 3)); [|apply post_ret; tag_done]. unfold relative_this. walk; tag_done.
  - destruct (dwmy (grp m 4)).
    + match goal with |- post _ (if ?b then _ else _) => destruct b end.
      * apply post_bind; intros d' _. apply (post_res (tagged TRelative)); [apply imply_tagged; tag_done|]. intros. walk. tag_done.
      * apply post_bind; intros d' _. intros r E. apply good_tagged. revert r E. apply imply_tagged. tag_done.
    + apply post_bind; intros t _. apply post_bind; intros d' _. apply (post_res untagged); [apply imply_untagged; tag_done|]. intros. walk. tag_done.
Qed.
Lemma casual_date_tags e g tx m ref idx : post (tagged TCasualDate) (casual_date_extract e g tx m ref idx).
Proof.
  unfold casual_date_extract. intros r X. apply bind_ret in X as ([tmp r0] & X0 & X).
  assert (U : untagged r0).
  { revert X0. cbv zeta. unfold with_re. repeat match goal with |- context [if ?b then _ else _] => destruct b | |- context [match ?c with Some _ => _ | None => _ end] => destruct c end;
    intros X0; try discriminate; repeat (match type of X0 with bind _ _ = _ => apply bind_ret in X0 as (? & _ & X0) end); apply ret_inv in X0; apply (f_equal snd) in X0; cbn [snd] in X0; subst r0; tag_done. }
  revert r X. match goal with |- forall r, ?o = Ret r -> _ => change (post (tagged TCasualDate) o) end. walk. tag_done.
Qed.
(** the deadline parser tags hours, minutes and seconds only *)
Lemma deadline_tags e g tx m ref idx : post (fun r => tagged TDeadline r \/ untagged r) (deadline_extract e g tx m ref idx).
Proof.
  unfold deadline_extract. cbv zeta. apply post_bind; intros d _. destruct (deadline_amount g (grp m 3)); [|apply post_ret; right; tag_done].
  destruct (dwmy (grp m 4)).
  - match goal with |- post _ (if ?b then _ else _) => destruct b end.
    + apply post_bind; intros d' _. apply (post_res untagged); [apply imply_untagged; tag_done|]. intros. walk. right. tag_done.
    + apply post_bind; intros d' _. intros r E. right. revert r E. apply imply_untagged. tag_done.
  - apply post_bind; intros t _. apply (post_res untagged); [apply imply_untagged; tag_done|]. intros. walk. left. tag_done.
Qed.
Lemma week_tags e g tx m ref idx : post untagged (snd (week_extract e g tx m ref idx)).
Proof.
  unfold week_extract. destruct (pt_date ref); cbn [snd]; try (intros ? ?; discriminate). destruct (week_count g m). cbn [snd]. apply post_bind. intros n _. apply imply_untagged. tag_done.
Qed.
(** a clock result without the tag has no hour *)
Definition no_hour (r : result) : Prop := isCertain "hour" (r_start r) = false /\ getYear (r_start r) = 0.
Lemma time_expression_to_tags e m ref h r : tagged TTimeExpression r -> post (tagged TTimeExpression) (time_expression_to e m ref h r).
Proof.
  intros T. unfold time_expression_to, with_re. match goal with |- post _ (match ?x with _ => _ end) => destruct x end; [|intros ? ?; discriminate].
  walk; tag_done.
Qed.
Lemma time_expression_tags e g tx m ref idx : post (fun r => tagged TTimeExpression r \/ untagged r /\ no_hour r) (time_expression_extract e g tx m ref idx).
Proof.
  assert (B : forall sec tt, (fun r => tagged TTimeExpression r \/ untagged r /\ no_hour r) (match sec with Some s => on_start (setSeconds s) (res_new ref idx tt) | None => res_new ref idx tt end)).
  { intros sec tt. right. destruct sec; (split; [tag_done|split; reflexivity]). }
  unfold time_expression_extract. cbv zeta. apply post_bind; intros tt _. apply post_bind; intros st _. destruct st; [apply post_ret; right; split; [tag_done|split; reflexivity]|].
  apply post_bind; intros sec _. match goal with |- post _ (if ?b then _ else _) => destruct b end; [apply post_ret; right; split; [tag_done|split; reflexivity]|].
  apply post_bind; intros h _. apply post_bind; intros [h' mi] _.
  do 3 (match goal with |- post _ (if ?b then _ else _) => destruct b end; [apply post_ret, B|]).
  do 4 (apply post_bind; intros ? _).
  match goal with |- post _ (if ?b then _ else _) => destruct b end.
  - apply post_ret. left. destruct sec; tag_done.
  - intros r E. left. revert r E. apply time_expression_to_tags. destruct sec; tag_done.
Qed.

(** What each parser guarantees about a result it returns. *)
Definition tag_rule (p : parser) (res : result) : Prop := exists t, In (p, t) own_tag /\
  match t with
  | None => untagged res
  | Some m => tagged m res \/ untagged res /\ (p = deadline \/ p = time_expression /\ no_hour res)
  end.
Lemma copy_tagged t r : tagged t r -> tagged t (res_copy r). Proof. intros T m. apply T. Qed.
Lemma copy_untagged r : untagged r -> untagged (res_copy r). Proof. intros T m. apply T. Qed.
Lemma tag_rules e p g text ref rs res : sane e -> In p all_parsers -> x_res (execute e p g text ref) = Ret rs -> In res rs -> tag_rule p res.
Proof.
  intros He Ip X I.
  assert (G : forall t q r, In (q, Some t) own_tag -> hasPossibleDates r = true -> good t r -> tag_rule q (res_copy r)).
  { intros t q r Iq P [T|[U N]]; [|rewrite P in N; discriminate]. exists (Some t). split; [exact Iq|]. left. apply copy_tagged, T. }
  assert (D : compile (p_pattern p) = None \/ exists r0 g0 g1 tx m idx, p_extract p e g0 tx m ref idx = (g1, Ret r0) /\ hasPossibleDates r0 = true /\ res = res_copy r0).
  { destruct (compile (p_pattern p)) as [re|] eqn:C; [|left; reflexivity]. right.
    destruct (results_from e p g text ref rs res re He Ip C X I) as (off & m & g0 & g1 & r0 & _ & _ & E & P & ->).
    exists r0, g0, g1, (skipn off (to_lower text)), m, (Z.of_nat (off + m_pos m)). auto. }
  destruct D as [C|(r0 & g0 & g1 & tx & m & idx & E & P & ->)].
  { unfold execute in X. rewrite C in X. apply ret_inv in X. subst rs. contradiction. }
  apply (f_equal snd) in E. cbn [snd] in E.
  unfold all_parsers, Main.parsers in Ip. cbn [app] in Ip.
  repeat (destruct Ip as [<-|Ip]); try contradiction; cbn [p_extract casual_time deadline day_of_week casual_date middle_endian time_later month_name time_ago time_expression iso holiday week relative] in E;
    unfold pure_extract in E; cbn [snd] in E.
  - apply (G TCasualTime); [unfold own_tag; cbn; tauto|exact P|]. left. exact (casual_time_tags _ _ _ _ _ _ _ E).
  - exists (Some TDeadline). split; [unfold own_tag; cbn; tauto|]. destruct (deadline_tags _ _ _ _ _ _ _ E) as [T|U]; [left; apply copy_tagged, T|right; split; [apply copy_untagged, U|left; reflexivity]].
  - exists (Some TDayOfWeek). split; [unfold own_tag; cbn; tauto|]. exfalso. pose proof day_of_week_compile as C. unfold execute in X. rewrite C in X. apply ret_inv in X. subst rs. contradiction.
  - apply (G TCasualDate); [unfold own_tag; cbn; tauto|exact P|]. left. exact (casual_date_tags _ _ _ _ _ _ _ E).
  - apply (G TMiddleEndian); [unfold own_tag; cbn; tauto|exact P|]. exact (middle_endian_tags _ _ _ _ _ _ _ E).
  - apply (G TTimeLater); [unfold own_tag; cbn; tauto|exact P|]. exact (time_later_tags _ _ _ _ _ _ _ E).
  - apply (G TMonthName); [unfold own_tag; cbn; tauto|exact P|]. exact (month_name_tags _ _ _ _ _ _ _ E).
  - apply (G TTimeAgo); [unfold own_tag; cbn; tauto|exact P|]. exact (time_ago_tags _ _ _ _ _ _ _ E).
  - exists (Some TTimeExpression). split; [unfold own_tag; cbn; tauto|]. destruct (time_expression_tags _ _ _ _ _ _ _ E) as [T|[U N]]; [left; apply copy_tagged, T|right; split; [apply copy_untagged, U|right; split; [reflexivity|exact N]]].
  - apply (G TISO); [unfold own_tag; cbn; tauto|exact P|]. exact (iso_tags _ _ _ _ _ _ _ E).
  - apply (G THolidays); [unfold own_tag; cbn; tauto|exact P|]. left. exact (holiday_tags _ _ _ _ _ _ _ E).
  - exists None. split; [unfold own_tag; cbn; tauto|]. apply copy_untagged. exact (week_tags _ _ _ _ _ _ _ E).
  - apply (G TRelative); [unfold own_tag; cbn; tauto|exact P|]. exact (relative_tags _ _ _ _ _ _ _ E).
Qed.
Lemma own_unique p t t' : In (p, t) own_tag -> In (p, t') own_tag -> t = t'.
Proof.
  assert (N : NoDup (map (fun x => p_pattern (fst x)) own_tag)).
  { unfold own_tag. cbn [map fst]. repeat constructor; cbn [In]; intros I; repeat (destruct I as [I|I]; [vm_compute in I; discriminate|]); exact I. }
  revert N. generalize own_tag. induction l as [|[q u] l IH]; cbn [map fst In]; intros N A B; [contradiction|]. inversion N as [|? ? Nq Nl]; subst.
  assert (Q : forall x, In (p, x) l -> In (p_pattern p) (map (fun x => p_pattern (fst x)) l)) by (intros x Ix; apply in_map_iff; exists (p, x); auto).
  destruct A as [A|A], B as [B|B].
  - congruence.
  - injection A as -> ->. destruct (Nq (Q _ B)).
  - injection B as -> ->. destruct (Nq (Q _ A)).
  - auto.
Qed.
Lemma mod_eqb_eq a b : mod_eqb a b = true -> a = b.
Proof. destruct a, b; intros H; try reflexivity; vm_compute in H; discriminate. Qed.
Lemma mod_eqb_refl a : mod_eqb a a = true. Proof. destruct a; reflexivity. Qed.
Lemma all_owned p : In p all_parsers <-> exists t, In (p, t) own_tag.
Proof.
  unfold all_parsers, Main.parsers. cbn [app]. split.
  - intros I. cbn [In] in I. repeat (destruct I as [<-|I]; [eexists; unfold own_tag; cbn [In]; intuition reflexivity|]). contradiction.
  - intros [t I]. unfold own_tag in I. cbn [In] in I. repeat (destruct I as [E|I]; [injection E as <- _; cbn [In]; tauto|]). contradiction.
Qed.

(** ** C73.  No result carries a tag of another parser or of a refiner ... *)
Theorem C73_only_own_tag : forall e p t g text ref rs res m, sane e -> In (p, t) own_tag ->
  x_res (execute e p g text ref) = Ret rs -> In res rs -> tag_is m res = true -> t = Some m.
Proof.
  intros e p t g text ref rs res m He Ip X I T. destruct (tag_rules e p g text ref rs res He (proj2 (all_owned p) (ex_intro _ t Ip)) X I) as (t' & I' & H).
  rewrite (own_unique _ _ _ Ip I'). rewrite tag_is_tags in T. destruct t' as [m'|].
  - destruct H as [H|[H _]]; rewrite H in T; [|discriminate]. destruct (mod_eqb m m') eqn:E; [|discriminate]. apply mod_eqb_eq in E. subst. reflexivity.
  - rewrite H in T. discriminate.
Qed.
Print Assumptions C73_only_own_tag.
(** ... in particular none is marked as having a time zone or as merged before the refiners run; *)
Theorem C73_no_refiner_tag : forall e p g text ref rs res m, sane e -> In p all_parsers -> x_res (execute e p g text ref) = Ret rs -> In res rs ->
  In m [TExtractTZ; TMergeDateAndTime; TMergeDateRange] -> tag_is m res = false.
Proof.
  intros e p g text ref rs res m He Ip X I Im. destruct (tag_is m res) eqn:T; [|reflexivity]. exfalso. apply all_owned in Ip as [t It].
  pose proof (C73_only_own_tag e p t g text ref rs res m He It X I T) as ->. clear - Im It. cbn [In] in Im. unfold own_tag in It. cbn [In] in It.
  repeat (destruct It as [E|It]; [exfalso; first [discriminate E|injection E as _ <-; destruct Im as [Im|[Im|[Im|Im]]]; first [discriminate Im|exact Im]]|]). exact It.
Qed.
Print Assumptions C73_no_refiner_tag.
(** ... and the tag is there, except on weeks (which have none), on deadlines, and on clock results for which no hour was accepted. *)
Theorem C73_tag_present : forall e p m g text ref rs res, sane e -> In (p, Some m) own_tag ->
  x_res (execute e p g text ref) = Ret rs -> In res rs -> p <> deadline -> (p = time_expression -> isCertain "hour" (r_start res) = true) -> tag_is m res = true.
Proof.
  intros e p m g text ref rs res He Ip X I Nd Nc. destruct (tag_rules e p g text ref rs res He (proj2 (all_owned p) (ex_intro _ (Some m) Ip)) X I) as (t' & I' & H).
  rewrite <- (own_unique _ _ _ Ip I') in H. rewrite tag_is_tags. destruct H as [H|[_ [H|[H [C _]]]]].
  - rewrite H, mod_eqb_refl. reflexivity.
  - contradiction.
  - rewrite (Nc H) in C. discriminate.
Qed.
Print Assumptions C73_tag_present.
Example C73_case : exists a b c d, x_res (execute env0 iso gwords_init (bs "on 2012-08-10") noon2024) = Ret [a] /\ tag_is TISO a = true /\ tag_is TExtractTZ a = false /\
  x_res (execute env0 time_expression gwords_init (bs "at 5:30 pm") noon2024) = Ret [b] /\ isCertain "hour" (r_start b) = true /\ tag_is TTimeExpression b = true /\
  x_res (execute env0 deadline gwords_init (bs "in 5 days") noon2024) = Ret [c] /\ tag_is TDeadline c = false /\
  x_res (execute env0 deadline gwords_init (bs "in 5 hours") noon2024) = Ret [d] /\ tag_is TDeadline d = true.
Proof. do 4 eexists. repeat (split; [vm_compute; reflexivity|]). vm_compute. reflexivity. Qed.
