(** * HolidayFacts *)
From Verif Require Import Base Regex RegexParse Calendar Components Utils Execute Spec View ParserSpec CalendarCycle CalendarFacts RegexFacts ResultFacts Template
  ExecuteFacts ParserRe MatchFacts HistoryFacts ParserFacts CasualFacts DeadlineFacts P_Holiday.
From Coq Require Import ZifyBool ZifyNat ZifyN.
Open Scope string_scope.
Open Scope list_scope.
Open Scope Z_scope.

(** ** searching for a word in a text with white space in it *)
Lemma sw_solid_blank needle : solid needle -> forall u c v, is_space c = true -> starts_with needle (u ++ c :: v) = starts_with needle u.
Proof.
  intros S. induction S as [|x needle Hx S IH]; intros u c v Hc; [destruct u; reflexivity|].
  destruct u as [|y u]; cbn [app starts_with].
  - destruct (space_not c x Hc Hx) as [_ ->]. reflexivity.
  - rewrite IH by exact Hc. reflexivity.
Qed.
Lemma contains_split_one needle u c v : solid needle -> needle <> [] -> is_space c = true -> contains needle (u ++ c :: v) = contains needle u || contains needle v.
Proof.
  intros S N Hc. induction u as [|y u IH].
  - cbn [app contains]. destruct needle as [|x needle]; [congruence|]. inversion S as [|? ? Hx _]; subst.
    cbn [starts_with]. destruct (space_not c x Hc Hx) as [_ ->]. reflexivity.
  - cbn [app contains]. rewrite IH. change (y :: u ++ c :: v) with ((y :: u) ++ c :: v). rewrite sw_solid_blank by assumption. rewrite orb_assoc. reflexivity.
Qed.
Lemma contains_nil needle : needle <> [] -> contains needle [] = false.
Proof. destruct needle; [congruence|reflexivity]. Qed.
Lemma contains_split needle u sp v : solid needle -> needle <> [] -> blanks sp -> sp <> [] -> contains needle (u ++ sp ++ v) = contains needle u || contains needle v.
Proof.
  intros S N B Ns. destruct sp as [|c sp]; [congruence|]. inversion B as [|? ? Hc B']; subst. cbn [app]. rewrite contains_split_one by assumption. f_equal.
  destruct needle as [|x needle]; [congruence|]. inversion S; subst. apply contains_blanks; assumption.
Qed.
Lemma starts_with_prefix a b t : starts_with (a ++ b) t = true -> starts_with a t = true.
Proof. revert t. induction a as [|x a IH]; intros t; [destruct t; reflexivity|]. destruct t as [|y t]; cbn; [auto|]. intros H. apply andb_prop in H as [-> H]. apply IH. exact H. Qed.
Lemma contains_prefix a b t : contains (a ++ b) t = true -> contains a t = true.
Proof.
  induction t as [|y t IH]; cbn [contains]; intros H; apply Bool.orb_true_iff in H as [H|H]; try discriminate; apply Bool.orb_true_iff; [left; eapply starts_with_prefix; eauto| |right; auto].
  left. eapply starts_with_prefix; eauto.
Qed.
Lemma contains_no_prefix a b t : contains a t = false -> contains (a ++ b) t = false.
Proof. intros H. destruct (contains (a ++ b) t) eqn:E; [|reflexivity]. apply contains_prefix in E. congruence. Qed.

(** a text beginning with the words and single blanks of the needle *)
Lemma solid_bs s : forallb (fun c => negb (is_space c)) (bs s) = true -> solid (bs s).
Proof. intros H. apply Forall_forall. intros c I. rewrite forallb_forall in H. specialize (H c I). destruct (is_space c); [discriminate|reflexivity]. Qed.

(** ** the match *)
Lemma holiday_match t m : search true holiday_re t = Some m ->
  exists pre post w sp d, t = pre ++ m_str m ++ post /\ m_pos m = List.length pre /\ m_str m = w ++ sp ++ d /\
    lang true ho_words w /\ blanks sp /\ sp <> [] /\ (d = [] \/ lang true ho_day d) /\
    (forall p, wb_at (lastc (sp ++ d) p) post).
Proof.
  intros H. shape H. unfold grp. clear C. unfold holiday_re in M. mt_crack M; shape_end Es; rewrite <- Es in *; clear Es;
  match goal with L : lang _ SPp _ |- _ => apply SPp_blanks in L as [? ?] end.
  - match goal with B : blanks ?sp, Lw : lang _ ho_words ?w, Hw : wb_at ?q ?post |- _ => exists pre, post, w, sp, []; rewrite !app_nil_r; repeat split; auto; intros p;
      rewrite (lastc_irrel sp p (lastc w (lastc pre None))) by assumption; exact Hw end.
  - match goal with B : blanks ?sp, Lw : lang _ ho_words ?w, Ld : lang _ ho_day ?d, Hw : wb_at (lastc ?d ?q) ?post |- _ => exists pre, post, w, sp, d; repeat split; auto; intros p;
      rewrite lastc_app; rewrite (lastc_irrel d (lastc sp p) q) by (apply (lang_nonempty _ _ _ Ld); vm_compute; lia); exact Hw end.
Qed.

(** ** the decision the program takes on the matched text *)
Inductive choice := Rule (r : holiday_rule) | Black | Nothing.
Definition pick (text : bytes) : choice :=
  if contains (bs "independence") text then Rule (OnDate 7 4)
  else if contains (bs "new year") text then Rule (if contains (bs "eve") text then OnDate 12 31 else OnDate 1 1)
  else if contains (bs "veteran") text then Rule (OnDate 11 11)
  else if contains (bs "christmas") text then Rule (if contains (bs "eve") text then OnDate 12 24 else OnDate 12 25)
  else if contains (bs "mlk") text || contains (bs "martin luther king") text then Rule (NthDay 3 1 1)
  else if contains (bs "labor") text then Rule (NthDay 1 1 9)
  else if contains (bs "president") text then Rule (NthDay 3 1 2)
  else if contains (bs "thanksgiving") text then Rule (NthDay 4 4 11)
  else if contains (bs "black") text then Black
  else if contains (bs "memorial") text then Rule (LastDay 1 5)
  else if contains (bs "columbus") text then Rule (NthDay 2 1 10)
  else Nothing.

Definition holiday_on (r : holiday_rule) (y : Z) (res : result) : Prop :=
  exists c, real_date c /\ falls_on r y c /\ date_certain (r_start res) c /\ holiday_weekday r c (r_start res) /\
    certain Hour 0 (r_start res) /\ certain Min 0 (r_start res) /\ untouched [Sec; TzOffset] (r_start res).
(** two days after the fourth Thursday of November, the weekday being called Saturday *)
Definition black_on (y : Z) (res : result) : Prop :=
  exists d, nth_weekday 4 4 y 11 d /\ date_certain (r_start res) (Cal y 11 (d + 2)) /\ certain WDay 6 (r_start res) /\
    certain Hour 0 (r_start res) /\ certain Min 0 (r_start res) /\ untouched [Sec; TzOffset] (r_start res).
Definition nothing_on (res : result) : Prop := untouched [Year; Month; MDay; WDay; Sec; TzOffset] (r_start res) /\ getHour (r_start res) = 0 /\ getMinute (r_start res) = 0 /\ has_end res = false.
Definition same_frame (tx : bytes) (idx : Z) (res : result) : Prop := r_text res = tx /\ r_index res = u32 idx /\ has_end res = false.

Lemma nth_real n w y m d : nth_weekday n w y m d -> 1400 <= y <= 9999 -> real_date (Cal y m d).
Proof. intros (V & _) H. split; [exact V|exact H]. Qed.
Lemma nov_valid y d : 1 <= d <= 30 -> valid (Cal y 11 d).
Proof. intros H. split; cbn [cm cd cy]; [lia|]. change (month_len y 11) with 30. lia. Qed.

Lemma holiday_by_pick e g tx m t us idx : real_instant t us ->
  exists res, holiday_extract e g tx m (ptime_of t us) idx = Ret res /\ same_frame (m_str m) idx res /\
    match pick (m_str m) with Rule r => holiday_on r (cy (mdate t)) res | Black => black_on (cy (mdate t)) res | Nothing => nothing_on res end.
Proof.
  intros H. pose proof (proj1 (proj1 H)) as Rt. pose proof (proj2 Rt) as Hy. unfold in_range_year in Hy.
  unfold holiday_extract, holiday_date, grp. rewrite pt_date_of by exact H. cbn [bind]. unfold d_year at 1. rewrite ymd_real by exact Rt. cbn [bind].
  change (to_lower (bs "Martin Luther King")) with (bs "martin luther king").
  assert (Fixed : forall mo d (f : pc -> pc), 1 <= mo <= 12 -> 1 <= d <= 28 \/ In (mo, d) [(12, 31)] -> 
    (f = set_ymd (cy (mdate t)) mo d \/ (exists a b, f = fun p => set_mDay d (setMonth mo (set_ymd (cy (mdate t)) a b p))) \/ exists b, f = fun p => set_mDay d (set_ymd (cy (mdate t)) mo b p)) ->
    exists res, (res0 <- Ret (on_start f (res_new (ptime_of t us) idx (m_str m)));; Ret (setTag THolidays (on_start (fun p => setMinute 0 (setHour 0 p)) res0))) = Ret res /\
      same_frame (m_str m) idx res /\ holiday_on (OnDate mo d) (cy (mdate t)) res).
  { intros mo d f Hmo Hd Hf. cbn [bind]. eexists. split; [reflexivity|].
    assert (V : valid (Cal (cy (mdate t)) mo d)).
    { split; cbn [cm cd cy]; [exact Hmo|]. destruct Hd as [Hd|[Hd|[]]]; [pose proof (month_len_bounds (cy (mdate t)) mo Hmo); lia|]. injection Hd as <- <-. change (month_len (cy (mdate t)) 12) with 31. lia. }
    destruct Hf as [-> | [(a & b & ->) | (b & ->)]]; (split; [repeat split|]); exists (Cal (cy (mdate t)) mo d);
      (split; [split; [exact V|exact Hy]|]); (split; [repeat split|]); repeat split; try comps. }
  assert (Comp : forall c r, real_date c -> falls_on r (cy (mdate t)) c -> (match r with OnDate _ _ => False | _ => True end) ->
    exists res, (res0 <- set_from_date (dn_of c) 0 (res_new (ptime_of t us) idx (m_str m));; Ret (setTag THolidays (on_start (fun p => setMinute 0 (setHour 0 p)) res0))) = Ret res /\
      same_frame (m_str m) idx res /\ holiday_on r (cy (mdate t)) res).
  { intros c r Rc F Nr. unfold set_from_date, d_year, d_month, d_day. rewrite ymd_real by exact Rc. cbn [bind]. rewrite d_dow_real by exact Rc. cbn [bind].
    eexists. split; [reflexivity|]. split; [repeat split|]. exists c. split; [exact Rc|]. split; [exact F|]. rewrite !Z.add_0_r.
    split; [comps|]. split; [destruct r; [contradiction| |]; unfold holiday_weekday; comps|]. repeat split; comps. }
  assert (Nth : forall n w mo, 1 <= n <= 4 -> 0 <= w < 7 -> 1 <= mo <= 12 ->
    exists res, (res0 <- (d <- nth_dow_in_month n w mo (cy (mdate t));; set_from_date d 0 (res_new (ptime_of t us) idx (m_str m)));; Ret (setTag THolidays (on_start (fun p => setMinute 0 (setHour 0 p)) res0))) = Ret res /\
      same_frame (m_str m) idx res /\ holiday_on (NthDay n w mo) (cy (mdate t)) res).
  { intros n w mo Hn Hw Hmo. destruct (nth_dow_spec n w (cy (mdate t)) mo Hn Hw Hy Hmo) as (d & E & Nw). rewrite E. cbn [bind]. apply Comp; [|repeat split; apply Nw|exact I]. eapply nth_real; eauto. }
  unfold pick.
  destruct (contains (bs "independence") (m_str m)); [apply Fixed; [lia|lia|auto]|].
  destruct (contains (bs "new year") (m_str m)).
  { destruct (contains (bs "eve") (m_str m)); apply Fixed; try lia; auto; try (right; cbn; auto; fail). right. left. eauto. }
  destruct (contains (bs "veteran") (m_str m)); [apply Fixed; [lia|lia|auto]|].
  destruct (contains (bs "christmas") (m_str m)).
  { destruct (contains (bs "eve") (m_str m)); apply Fixed; try lia; auto. right. right. eauto. }
  destruct (contains (bs "mlk") (m_str m) || contains (bs "martin luther king") (m_str m)); [apply Nth; lia|].
  destruct (contains (bs "labor") (m_str m)); [apply Nth; lia|].
  destruct (contains (bs "president") (m_str m)); [apply Nth; lia|].
  destruct (contains (bs "thanksgiving") (m_str m)); [apply Nth; lia|].
  destruct (contains (bs "black") (m_str m)).
  { destruct (nth_dow_spec 4 4 (cy (mdate t)) 11 ltac:(lia) ltac:(lia) Hy ltac:(lia)) as (d & E & Nw). rewrite E. cbn [bind].
    pose proof Nw as (V & W & B). replace (dn_of (Cal (cy (mdate t)) 11 d) + 1) with (dn_of (Cal (cy (mdate t)) 11 (d + 1))) by (unfold dn_of; rewrite (rd_day _ _ d); lia).
    assert (R1 : real_date (Cal (cy (mdate t)) 11 (d + 1))) by (split; [apply nov_valid; lia|exact Hy]).
    unfold set_from_date, d_year, d_month, d_day. rewrite ymd_real by exact R1. cbn [bind]. rewrite d_dow_real by exact R1. cbn [bind cy cm cd].
    assert (W1 : weekday (Cal (cy (mdate t)) 11 (d + 1)) = 5). { unfold weekday in *. rewrite (rd_day _ _ d). pose proof (Z.mod_pos_bound (rd (Cal (cy (mdate t)) 11 d)) 7). rewrite Z.add_mod, W by lia. replace (d + 1 - d) with 1 by lia. reflexivity. }
    rewrite W1. eexists. split; [reflexivity|]. split; [repeat split|]. exists d. split; [exact Nw|]. replace (d + 1 + 1) with (d + 2) by lia. repeat split; comps. }
  destruct (contains (bs "memorial") (m_str m)).
  { destruct (last_dow_spec 1 (cy (mdate t)) 5 ltac:(lia) Hy ltac:(lia)) as (d & E & Nw). rewrite E. cbn [bind]. apply Comp; [|repeat split; apply Nw|exact I]. split; [apply Nw|exact Hy]. }
  destruct (contains (bs "columbus") (m_str m)); [apply Nth; lia|].
  cbn [bind]. eexists. split; [reflexivity|]. split; [repeat split|]. repeat split; comps.
Qed.

(** ** names and decisions *)
Definition day_word (d : bytes) : Prop := d = [] \/ d = bs "day".
Ltac cont1 := match goal with
  | |- context [contains ?n (?u ++ ?sp ++ ?v)] =>
      rewrite (contains_split n u sp v) by (first [assumption | discriminate | (apply solid_bs; reflexivity)])
  end.
Ltac conts := repeat cont1; finds.
Lemma pick_table x r w sp d : In (x, r) holiday_table -> w = bs x -> blanks sp -> sp <> [] -> day_word d -> pick (w ++ sp ++ d) = Rule r.
Proof.
  intros I -> B N D. unfold pick.
  assert (C1 : contains (bs "new year") (bs x ++ sp ++ d) = false).
  { apply (contains_no_prefix (bs "new") (bs " year")). rewrite contains_split by (first [assumption | discriminate | (apply solid_bs; reflexivity)]).
    cbn in I; decompose [or] I; try contradiction; match goal with E : (_, _) = (_, _) |- _ => injection E as <- <- end; destruct D as [-> | ->]; vm_compute; reflexivity. }
  assert (C2 : contains (bs "martin luther king") (bs x ++ sp ++ d) = false).
  { apply (contains_no_prefix (bs "martin") (bs " luther king")). rewrite contains_split by (first [assumption | discriminate | (apply solid_bs; reflexivity)]).
    cbn in I; decompose [or] I; try contradiction; match goal with E : (_, _) = (_, _) |- _ => injection E as <- <- end; destruct D as [-> | ->]; vm_compute; reflexivity. }
  rewrite C1, C2. repeat cont1. cbn in I; decompose [or] I; try contradiction; match goal with E : (_, _) = (_, _) |- _ => injection E as <- <- end; destruct D as [-> | ->]; vm_compute; reflexivity.
Qed.
Lemma eve_in d : day_word d -> contains (bs "eve") d = false.
Proof. intros [-> | ->]; reflexivity. Qed.
Lemma pick_name w r sp d : holiday_name one_space w r -> blanks sp -> sp <> [] -> day_word d -> pick (w ++ sp ++ d) = Rule r.
Proof.
  intros [(x & I & E)|[(-> & s & -> & ->)|[(-> & s & s' & -> & -> & B')|(-> & s & s' & s'' & j & -> & -> & -> & B'' & J)]]] B N D.
  - eapply pick_table; eauto.
  - unfold pick. change (bs "new" ++ bs " " ++ bs "year's") with (bs "new year's").
    replace (contains (bs "new year") (bs "new year's" ++ sp ++ d)) with true by (symmetry; apply (contains_start (bs "new year") (bs "'s" ++ sp ++ d))). repeat cont1.
    destruct D as [-> | ->]; vm_compute; reflexivity.
  - unfold pick. replace ((bs "new" ++ bs " " ++ bs "year's" ++ s' ++ bs "eve") ++ sp ++ d) with (bs "new year's" ++ s' ++ (bs "eve" ++ sp ++ d)) by (rewrite <- !app_assoc; reflexivity).
    replace (contains (bs "new year") (bs "new year's" ++ s' ++ bs "eve" ++ sp ++ d)) with true by (symmetry; apply (contains_start (bs "new year") (bs "'s" ++ s' ++ bs "eve" ++ sp ++ d))).
    replace (contains (bs "eve") (bs "new year's" ++ s' ++ bs "eve" ++ sp ++ d)) with true by (symmetry; apply contains_app_r, contains_app_r, contains_start).
    replace (contains (bs "independence") (bs "new year's" ++ s' ++ bs "eve" ++ sp ++ d)) with false; [reflexivity|]. symmetry.
    destruct s' as [|c s']; [cbn [app]|].
    + change (bs "new year's" ++ bs "eve" ++ sp ++ d) with (bs "new year'seve" ++ sp ++ d). rewrite (contains_split _ (bs "new year'seve")) by (first [assumption | discriminate | (apply solid_bs; reflexivity)]). destruct D as [-> | ->]; vm_compute; reflexivity.
    + rewrite (contains_split _ (bs "new year's")) by (first [assumption | discriminate | (apply solid_bs; reflexivity)]).
      rewrite (contains_split _ (bs "eve")) by (first [assumption | discriminate | (apply solid_bs; reflexivity)]). destruct D as [-> | ->]; vm_compute; reflexivity.
  - unfold pick. replace ((bs "martin" ++ bs " " ++ bs "luther" ++ bs " " ++ bs "king" ++ s'' ++ bs j) ++ sp ++ d) with (bs "martin luther king" ++ s'' ++ (bs j ++ sp ++ d)) by (rewrite <- !app_assoc; reflexivity).
    replace (contains (bs "martin luther king") (bs "martin luther king" ++ s'' ++ bs j ++ sp ++ d)) with true by (symmetry; apply contains_start).
    assert (Sol : forall n, In n ["independence"; "new"; "veteran"; "christmas"; "mlk"]%string -> contains (bs n) (bs "martin luther king" ++ s'' ++ bs j ++ sp ++ d) = false).
    { intros n In'. assert (Sn : solid (bs n) /\ bs n <> []) by (cbn in In'; decompose [or] In'; try contradiction; subst n; (split; [apply solid_bs; reflexivity|discriminate])).
      destruct Sn as [Sn Nn]. destruct s'' as [|c s''].
      - cbn [app]. rewrite app_assoc. rewrite (contains_split (bs n)) by assumption.
        cbn in J; cbn in In'; decompose [or] J; try contradiction; subst j; decompose [or] In'; try contradiction; subst n; destruct D as [-> | ->]; vm_compute; reflexivity.
      - rewrite !(contains_split (bs n)) by (first [assumption|discriminate]).
        cbn in J; cbn in In'; decompose [or] J; try contradiction; subst j; decompose [or] In'; try contradiction; subst n; destruct D as [-> | ->]; vm_compute; reflexivity. }
    rewrite (Sol "independence"), (Sol "veteran"), (Sol "christmas"), (Sol "mlk") by (cbn; tauto).
    replace (contains (bs "new year") (bs "martin luther king" ++ s'' ++ bs j ++ sp ++ d)) with false; [reflexivity|]. symmetry.
    apply (contains_no_prefix (bs "new") (bs " year")). apply Sol. cbn. tauto.
Qed.

Definition backslash : ascii := "\"%char.
Definition black_friday (w : bytes) : Prop := exists s, w = bs "black" ++ s ++ bs "friday" /\ blanks s.

(** every name the pattern accepts *)
Lemma ho_cases w : low w -> lang true ho_words w ->
  In backslash w \/ (exists x r, In (x, r) holiday_table /\ w = bs x) \/ (exists s, w = bs "new" ++ s ++ bs "year's" /\ blanks s) \/
  (exists s s', w = bs "new" ++ s ++ bs "year's" ++ s' ++ bs "eve" /\ blanks s /\ blanks s') \/
  (exists s s' s'' j, w = bs "martin" ++ s ++ bs "luther" ++ s' ++ bs "king" ++ s'' ++ bs j /\ blanks s /\ blanks s' /\ blanks s'' /\ In j ["junior"; "jr"; "jnr"]%string) \/
  black_friday w.
Proof.
  intros Lw L. word_cases L; rewrite ?app_nil_r in *.
  all: repeat match goal with R : Forall _ ?x |- _ => apply space_run in R end.
  all: try (right; left; do 2 eexists; split; [|match goal with |- ?l = bs ?x => let v := eval vm_compute in (string_of_list_ascii l) in instantiate (1 := v); reflexivity end]; cbn; tauto).
  all: try (left; cbn; tauto).
  all: try (right; right; left; eexists; split; [reflexivity|assumption]).
  all: try (right; right; right; left; do 2 eexists; split; [reflexivity|split; assumption]).
  all: try (right; right; right; right; left; match goal with R1 : blanks ?a, R2 : blanks ?b, R3 : blanks ?c |- _ =>
    first [exists a, b, c, "junior"%string; split; [reflexivity|]|exists a, b, c, "jr"%string; split; [reflexivity|]|exists a, b, c, "jnr"%string; split; [reflexivity|]];
    split; [exact R1|split; [exact R2|split; [exact R3|cbn; tauto]]] end).
  all: do 5 right; eexists; split; [reflexivity|assumption].
Qed.

(** searching in words separated by possibly empty gaps *)
Fixpoint joined (u : bytes) (l : list (bytes * bytes)) : bytes := match l with [] => u | (g, w) :: l' => u ++ g ++ joined w l' end.
Fixpoint jcontains (n u : bytes) (l : list (bytes * bytes)) : bool :=
  match l with [] => contains n u | (g, w) :: l' => if is_nil g then jcontains n (u ++ w) l' else contains n u || jcontains n w l' end.
Lemma joined_app u w l : joined (u ++ w) l = u ++ joined w l.
Proof. destruct l as [|[g v] l]; cbn; rewrite <- ?app_assoc; reflexivity. Qed.
Lemma joined_contains n : solid n -> n <> [] -> forall l u, Forall (fun x => blanks (fst x)) l -> contains n (joined u l) = jcontains n u l.
Proof.
  intros Sn Nn. induction l as [|[g w] l IH]; intros u F; [reflexivity|]. inversion F as [|? ? B F']; subst. cbn [joined jcontains fst] in *.
  destruct g as [|c g]; cbn [is_nil].
  - cbn [app]. rewrite <- joined_app. apply IH. exact F'.
  - rewrite contains_split by (first [assumption|discriminate]). rewrite IH by exact F'. reflexivity.
Qed.

(** ... and what the program makes of it *)
Lemma pick_word w sp d : low w -> lang true ho_words w -> blanks sp -> sp <> [] -> day_word d ->
  In backslash w \/ match pick (w ++ sp ++ d) with Rule r => holiday_name blanks w r | Black => black_friday w | Nothing => True end.
Proof.
  intros Lw L B N D. destruct (ho_cases w Lw L) as [I|[(x & r & I & ->)|[(s & -> & Bs)|[(s & s' & -> & Bs & Bs')|[(s & s' & s'' & j & -> & Bs & Bs' & Bs'' & J)|F]]]]]; [left; exact I|..]; right.
  - rewrite (pick_table x r (bs x) sp d I eq_refl B N D). left. eauto.
  - assert (C : forall n, In n ["independence"; "eve"; "veteran"; "christmas"; "mlk"; "martin"; "labor"; "president"; "thanksgiving"; "black"; "memorial"; "columbus"]%string -> contains (bs n) ((bs "new" ++ s ++ bs "year's") ++ sp ++ d) = false).
    { intros n In'. assert (Sn : solid (bs n) /\ bs n <> []) by (cbn in In'; decompose [or] In'; try contradiction; subst n; (split; [apply solid_bs; reflexivity|discriminate])).
      destruct Sn as [Sn Nn]. rewrite (contains_split (bs n)) by assumption. destruct s as [|c s]; [|rewrite (contains_split (bs n)) by (first [assumption|discriminate])];
        cbn in In'; decompose [or] In'; try contradiction; subst n; destruct D as [-> | ->]; vm_compute; reflexivity. }
    unfold pick. rewrite (C "independence"), (C "eve"), (C "veteran"), (C "christmas"), (C "mlk"), (C "labor"), (C "president"), (C "thanksgiving"), (C "black"), (C "memorial"), (C "columbus") by (cbn; tauto).
    assert (M : contains (bs "martin luther king") ((bs "new" ++ s ++ bs "year's") ++ sp ++ d) = false) by (apply (contains_no_prefix (bs "martin") (bs " luther king")); apply C; cbn; tauto).
    rewrite M. cbn [orb]. match goal with |- context [contains (bs "new year") ?t] => destruct (contains (bs "new year") t) end; [|exact I]. right. left. split; [reflexivity|]. eauto.
  - assert (C : forall n, In n ["independence"; "veteran"; "christmas"; "mlk"; "martin"; "labor"; "president"; "thanksgiving"; "black"; "memorial"; "columbus"]%string -> contains (bs n) ((bs "new" ++ s ++ bs "year's" ++ s' ++ bs "eve") ++ sp ++ d) = false).
    { intros n In'. assert (Sn : solid (bs n) /\ bs n <> []) by (cbn in In'; decompose [or] In'; try contradiction; subst n; (split; [apply solid_bs; reflexivity|discriminate])).
      destruct Sn as [Sn Nn].
      replace ((bs "new" ++ s ++ bs "year's" ++ s' ++ bs "eve") ++ sp ++ d) with (joined (bs "new") [(s, bs "year's"); (s', bs "eve"); (sp, d)]) by (cbn [joined]; rewrite <- ?app_assoc; reflexivity).
      rewrite joined_contains by (auto; repeat constructor; assumption). destruct sp as [|c0 sp]; [congruence|].
      destruct s as [|c s], s' as [|c' s']; cbn in In'; decompose [or] In'; try contradiction; subst n; destruct D as [-> | ->]; vm_compute; reflexivity. }
    unfold pick. rewrite (C "independence"), (C "veteran"), (C "christmas"), (C "mlk"), (C "labor"), (C "president"), (C "thanksgiving"), (C "black"), (C "memorial"), (C "columbus") by (cbn; tauto).
    assert (M : contains (bs "martin luther king") ((bs "new" ++ s ++ bs "year's" ++ s' ++ bs "eve") ++ sp ++ d) = false) by (apply (contains_no_prefix (bs "martin") (bs " luther king")); apply C; cbn; tauto).
    rewrite M. cbn [orb]. match goal with |- context [contains (bs "eve") ?t] => replace (contains (bs "eve") t) with true end.
    2:{ symmetry. rewrite <- !app_assoc. do 4 apply contains_app_r. apply contains_start. }
    match goal with |- context [contains (bs "new year") ?t] => destruct (contains (bs "new year") t) end; [|exact I]. right. right. left. split; [reflexivity|]. eauto 6.
  - assert (Nm : holiday_name blanks (bs "martin" ++ s ++ bs "luther" ++ s' ++ bs "king" ++ s'' ++ bs j) king_rule) by (right; right; right; split; [reflexivity|]; exists s, s', s'', j; auto).
    assert (C : forall n, In n ["independence"; "new"; "veteran"; "christmas"; "labor"; "president"; "thanksgiving"; "black"; "memorial"; "columbus"]%string -> contains (bs n) ((bs "martin" ++ s ++ bs "luther" ++ s' ++ bs "king" ++ s'' ++ bs j) ++ sp ++ d) = false).
    { intros n In'. assert (Sn : solid (bs n) /\ bs n <> []) by (cbn in In'; decompose [or] In'; try contradiction; subst n; (split; [apply solid_bs; reflexivity|discriminate])).
      destruct Sn as [Sn Nn].
      replace ((bs "martin" ++ s ++ bs "luther" ++ s' ++ bs "king" ++ s'' ++ bs j) ++ sp ++ d) with (joined (bs "martin") [(s, bs "luther"); (s', bs "king"); (s'', bs j); (sp, d)]) by (cbn [joined]; rewrite <- ?app_assoc; reflexivity).
      rewrite joined_contains by (auto; repeat constructor; assumption). destruct sp as [|c0 sp]; [congruence|].
      destruct s as [|c s], s' as [|c' s'], s'' as [|c'' s'']; cbn in J; decompose [or] J; try contradiction; subst j; cbn in In'; decompose [or] In'; try contradiction; subst n; destruct D as [-> | ->]; vm_compute; reflexivity. }
    unfold pick. rewrite (C "independence"), (C "veteran"), (C "christmas"), (C "labor"), (C "president"), (C "thanksgiving"), (C "black"), (C "memorial"), (C "columbus") by (cbn; tauto).
    match goal with |- context [contains (bs "new year") ?t] => assert (M : contains (bs "new year") t = false) by (apply (contains_no_prefix (bs "new") (bs " year")); apply C; cbn; tauto) end.
    rewrite M. match goal with |- context [if ?b then Rule (NthDay 3 1 1) else _] => destruct b end; [exact Nm|exact I].
  - pose proof F as (s & -> & Bs).
    assert (C : forall n, In n ["independence"; "new"; "veteran"; "christmas"; "mlk"; "martin"; "labor"; "president"; "thanksgiving"]%string -> contains (bs n) ((bs "black" ++ s ++ bs "friday") ++ sp ++ d) = false).
    { intros n In'. assert (Sn : solid (bs n) /\ bs n <> []) by (cbn in In'; decompose [or] In'; try contradiction; subst n; (split; [apply solid_bs; reflexivity|discriminate])).
      destruct Sn as [Sn Nn]. rewrite (contains_split (bs n)) by assumption. destruct s as [|c s]; [|rewrite (contains_split (bs n)) by (first [assumption|discriminate])];
        cbn in In'; decompose [or] In'; try contradiction; subst n; destruct D as [-> | ->]; vm_compute; reflexivity. }
    unfold pick. rewrite (C "independence"), (C "veteran"), (C "christmas"), (C "mlk"), (C "labor"), (C "president"), (C "thanksgiving") by (cbn; tauto).
    assert (M : contains (bs "martin luther king") ((bs "black" ++ s ++ bs "friday") ++ sp ++ d) = false) by (apply (contains_no_prefix (bs "martin") (bs " luther king")); apply C; cbn; tauto).
    assert (M' : contains (bs "new year") ((bs "black" ++ s ++ bs "friday") ++ sp ++ d) = false) by (apply (contains_no_prefix (bs "new") (bs " year")); apply C; cbn; tauto).
    rewrite M, M'. cbn [orb]. rewrite <- app_assoc. rewrite (contains_start (bs "black")). exact F.
Qed.
