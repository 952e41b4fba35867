(** * The command line (C70, C71, C72): from the arguments of the process to the lines it prints. *)
From Verif Require Import Base Regex RegexParse Calendar Components Utils Execute Spec View ParserSpec CalendarCycle CalendarFacts RegexFacts ResultFacts
  NumberFacts ParserFacts Refiners Main MainFacts Prop_Execute Prop_Casual Prop_ISO Prop_Main.
From Verif Require Import Reference.
From Coq Require Import ZifyBool ZifyNat ZifyN.
Open Scope string_scope.
Open Scope list_scope.
Open Scope Z_scope.

(** ** How a reference date is written on the command line: YYYY-MM-DD HH:MM:SS *)
Definition plainly (t : moment) : string :=
  (four_digits (cy (mdate t)) ++ "-" ++ two_digits (cm (mdate t)) ++ "-" ++ two_digits (cd (mdate t)) ++ " "
   ++ two_digits (mhour t) ++ ":" ++ two_digits (mmin t) ++ ":" ++ two_digits (msec t))%string.
(** six groups of digits with the usual separators *)
Definition stamp (y m d h mi s : bytes) : bytes :=
  y ++ bs "-" ++ m ++ bs "-" ++ d ++ bs " " ++ h ++ bs ":" ++ mi ++ bs ":" ++ s.

(** ** Tokens *)
Definition free (sep : ascii -> bool) (w : bytes) : Prop := Forall (fun c => sep c = false) w.
Lemma tokens_word sep w cur rest : free sep w -> tokens_from sep cur (w ++ rest) = tokens_from sep (cur ++ w) rest.
Proof.
  intros F. revert cur. induction F as [|c w Hc F IH]; intros cur; cbn [app tokens_from]; [rewrite app_nil_r; reflexivity|].
  rewrite Hc, IH, <- app_assoc. reflexivity.
Qed.
Lemma tokens_cons sep w c rest : free sep w -> w <> [] -> sep c = true -> tokens sep (w ++ c :: rest) = w :: tokens sep rest.
Proof.
  intros F N Hc. unfold tokens. rewrite tokens_word by exact F. cbn [app tokens_from]. rewrite Hc. destruct w; [congruence|]. reflexivity.
Qed.
Lemma tokens_last sep w : free sep w -> w <> [] -> tokens sep w = [w].
Proof.
  intros F N. unfold tokens. rewrite <- (app_nil_r w) at 1. rewrite tokens_word by exact F. cbn [app tokens_from]. destruct w; [congruence|]. reflexivity.
Qed.
Lemma digits_free sep w : (forall c, is_digit c = true -> sep c = false) -> digits w -> free sep w.
Proof. intros H D. unfold free. eapply Forall_impl; [|exact D]. exact H. Qed.
Lemma date_sep_digit c : is_digit c = true -> date_sep c = false.
Proof. destruct c as [b0 b1 b2 b3 b4 b5 b6 b7]. destruct b0, b1, b2, b3, b4, b5, b6, b7; intros H; try reflexivity; vm_compute in H; discriminate. Qed.
Lemma time_sep_digit c : is_digit c = true -> time_sep c = false.
Proof. destruct c as [b0 b1 b2 b3 b4 b5 b6 b7]. destruct b0, b1, b2, b3, b4, b5, b6, b7; intros H; try reflexivity; vm_compute in H; discriminate. Qed.

(** ** Numbers *)
Lemma all_digits_iff w : all_digits w = true <-> digits w.
Proof.
  unfold digits. induction w as [|c w IH]; cbn [all_digits]; [split; [constructor|reflexivity]|]. rewrite andb_true_iff, IH. split.
  - intros [A B]. constructor; assumption.
  - intros F. inversion F; subst. auto.
Qed.
Lemma cast_digits top w : digits w -> w <> [] -> lexical_cast top w = if top <? decimal w then Throw BadCast else Ret (decimal w).
Proof.
  intros D N. unfold lexical_cast.
  assert (E : match w with "+"%char :: r => r | _ => w end = w).
  { destruct w as [|c w]; [reflexivity|]. inversion D as [|? ? Hc _]; subst. clear - Hc. destruct c as [b0 b1 b2 b3 b4 b5 b6 b7].
    destruct b0, b1, b2, b3, b4, b5, b6, b7; try reflexivity; vm_compute in Hc; discriminate. }
  rewrite E. rewrite (proj2 (all_digits_iff w) D). replace (is_nil w) with false by (destruct w; [congruence|reflexivity]). cbn [orb negb].
  pose proof (read_digits_gen w D 0 0%nat [] I) as R. rewrite app_nil_r in R. rewrite R. reflexivity.
Qed.
Lemma month_digits w : digits w -> w <> [] -> month_str w = if USHRT_MAX <? decimal w then Throw BadCast else Ret (decimal w).
Proof.
  intros D N. rewrite <- cast_digits by assumption. destruct w as [|c w]; [congruence|]. inversion D as [|? ? Hc _]; subst. unfold month_str. rewrite Hc. reflexivity.
Qed.

(** ** The two halves *)
Lemma split_word w rest : Forall (fun c => Ascii.eqb c " " = false) w -> split_blank (w ++ bs " " ++ rest) = (w, rest).
Proof.
  induction 1 as [|c w Hc F IH]; [reflexivity|]. cbn [app split_blank]. rewrite Hc. cbn [app] in IH. rewrite IH. reflexivity.
Qed.
Lemma split_none w : Forall (fun c => Ascii.eqb c " " = false) w -> split_blank w = (w, []).
Proof. induction 1 as [|c w Hc F IH]; [reflexivity|]. cbn [split_blank]. rewrite Hc, IH. reflexivity. Qed.
Lemma digit_not_blank c : is_digit c = true -> Ascii.eqb c " " = false.
Proof. destruct c as [b0 b1 b2 b3 b4 b5 b6 b7]. destruct b0, b1, b2, b3, b4, b5, b6, b7; intros H; try reflexivity; vm_compute in H; discriminate. Qed.
Lemma digits_not_blank w : digits w -> Forall (fun c => Ascii.eqb c " " = false) w.
Proof. intros D. eapply Forall_impl; [|exact D]. exact digit_not_blank. Qed.

Lemma duration_read h mi s : digits h -> digits mi -> digits s -> h <> [] -> mi <> [] -> s <> [] ->
  decimal h <= INT_MAX -> decimal mi <= USHRT_MAX -> decimal s <= USHRT_MAX ->
  parse_duration (h ++ bs ":" ++ mi ++ bs ":" ++ s) = Ret ((3600 * decimal h + 60 * decimal mi + decimal s) * SEC).
Proof.
  intros Dh Dm Ds Nh Nm Ns Bh Bm Bs.
  assert (T : tokens time_sep (h ++ bs ":" ++ mi ++ bs ":" ++ s) = [h; mi; s]).
  { change (bs ":") with [":"%char]. cbn [app]. rewrite tokens_cons; [|apply digits_free; [exact time_sep_digit|exact Dh]|exact Nh|reflexivity].
    rewrite tokens_cons; [|apply digits_free; [exact time_sep_digit|exact Dm]|exact Nm|reflexivity].
    rewrite tokens_last; [reflexivity|apply digits_free; [exact time_sep_digit|exact Ds]|exact Ns]. }
  destruct h as [|c h]; [congruence|]. unfold parse_duration. cbn [app]. cbn [app] in T. rewrite T.
  unfold field_at. cbn [nth_error]. rewrite !cast_digits by assumption.
  replace (INT_MAX <? decimal (c :: h)) with false by lia. replace (USHRT_MAX <? decimal mi) with false by lia. replace (USHRT_MAX <? decimal s) with false by lia.
  cbn [bind]. inversion Dh as [|? ? Hc _]; subst. replace (Ascii.eqb c "-") with false; [rewrite Z.add_0_r; reflexivity|].
  clear - Hc. destruct c as [b0 b1 b2 b3 b4 b5 b6 b7]. destruct b0, b1, b2, b3, b4, b5, b6, b7; try reflexivity; vm_compute in Hc; discriminate.
Qed.
Lemma date_tokens y m d : free date_sep y -> free date_sep m -> free date_sep d -> y <> [] -> m <> [] -> d <> [] ->
  tokens date_sep (y ++ bs "-" ++ m ++ bs "-" ++ d) = [y; m; d].
Proof.
  intros. change (bs "-") with ["-"%char]. cbn [app]. rewrite tokens_cons; [|assumption|assumption|reflexivity]. rewrite tokens_cons; [|assumption|assumption|reflexivity].
  rewrite tokens_last by assumption. reflexivity.
Qed.
Lemma date_read y m d c : digits y -> digits m -> digits d -> y <> [] -> m <> [] -> d <> [] -> c = Cal (decimal y) (decimal m) (decimal d) -> real_date c ->
  parse_date (y ++ bs "-" ++ m ++ bs "-" ++ d) = Ret (dn_of c).
Proof.
  intros Dy Dm Dd Ny Nm Nd Ec R. unfold parse_date. rewrite date_tokens by (try apply digits_free; auto using date_sep_digit).
  rewrite !cast_digits, month_digits by assumption.
  assert (B : 1400 <= decimal y <= 9999 /\ 1 <= decimal m <= 12 /\ 1 <= decimal d <= 31).
  { subst c. pose proof R as [[V1 V2] Y]. cbn [cy cm cd] in *. pose proof (month_len_bounds (decimal y) (decimal m) V1). unfold in_range_year in Y. cbn [cy] in Y. lia. }
  unfold USHRT_MAX. replace (65535 <? decimal y) with false by lia. replace (65535 <? decimal m) with false by lia. replace (65535 <? decimal d) with false by lia.
  cbn [bind]. subst c. exact (mk_date_real _ R).
Qed.
Lemma date_only_real y m d dn : digits y -> digits m -> digits d -> y <> [] -> m <> [] -> d <> [] -> parse_date (y ++ bs "-" ++ m ++ bs "-" ++ d) = Ret dn ->
  real_date (Cal (decimal y) (decimal m) (decimal d)).
Proof.
  intros Dy Dm Dd Ny Nm Nd E. unfold parse_date in E. rewrite date_tokens in E by (try apply digits_free; auto using date_sep_digit).
  rewrite !cast_digits, month_digits in E by assumption. destruct (USHRT_MAX <? decimal y); [discriminate|]. destruct (USHRT_MAX <? decimal m); [discriminate|].
  destruct (USHRT_MAX <? decimal d); [discriminate|]. cbn [bind] in E. apply mk_date_inv in E. apply E.
Qed.

Lemma stamp_split y m d h mi s : digits y -> digits m -> digits d ->
  split_blank (stamp y m d h mi s) = (y ++ bs "-" ++ m ++ bs "-" ++ d, h ++ bs ":" ++ mi ++ bs ":" ++ s).
Proof.
  intros Dy Dm Dd. unfold stamp. replace (y ++ bs "-" ++ m ++ bs "-" ++ d ++ bs " " ++ h ++ bs ":" ++ mi ++ bs ":" ++ s)
    with ((y ++ bs "-" ++ m ++ bs "-" ++ d) ++ bs " " ++ (h ++ bs ":" ++ mi ++ bs ":" ++ s)) by (rewrite <- !app_assoc; reflexivity).
  apply split_word. repeat rewrite Forall_app. repeat split; auto using digits_not_blank; repeat constructor.
Qed.

(** ** C70.  A reference date on the command line is read as exactly the moment written there. *)
Theorem C70_reference : forall y m d h mi s t,
  digits y -> digits m -> digits d -> digits h -> digits mi -> digits s ->
  y <> [] -> m <> [] -> d <> [] -> h <> [] -> mi <> [] -> s <> [] ->
  t = Moment (Cal (decimal y) (decimal m) (decimal d)) (decimal h) (decimal mi) (decimal s) -> real_moment t ->
  time_from_string (stamp y m d h mi s) = Ret (ptime_of t 0).
Proof.
  intros y m d h mi s t Dy Dm Dd Dh Dmi Ds Ny Nm Nd Nh Nmi Ns Et R. subst t. unfold time_from_string. rewrite stamp_split by assumption.
  destruct R as (R & H1 & H2 & H3). cbn [mdate mhour mmin msec] in *.
  rewrite (date_read y m d _ Dy Dm Dd Ny Nm Nd eq_refl R). cbn [bind].
  rewrite duration_read; try assumption; unfold INT_MAX, USHRT_MAX; try lia. cbn [bind]. unfold ptime_of. cbn [mdate mhour mmin msec]. f_equal. lia.
Qed.
Print Assumptions C70_reference.
(** A date that does not exist is never accepted, whatever the time. *)
Theorem C70_impossible_dates : forall y m d h mi s p,
  digits y -> digits m -> digits d -> y <> [] -> m <> [] -> d <> [] ->
  time_from_string (stamp y m d h mi s) = Ret p -> real_date (Cal (decimal y) (decimal m) (decimal d)).
Proof.
  intros y m d h mi s p Dy Dm Dd Ny Nm Nd E. unfold time_from_string in E. rewrite stamp_split in E by assumption.
  destruct (parse_date (y ++ bs "-" ++ m ++ bs "-" ++ d)) as [dn| | | |] eqn:Ed; try discriminate. eapply date_only_real; eassumption.
Qed.
Print Assumptions C70_impossible_dates.
(** Times beyond the clock roll over into the following days: the seconds written are simply added to midnight. *)
Theorem C70_rollover : forall y m d h mi s c,
  digits y -> digits m -> digits d -> digits h -> digits mi -> digits s ->
  y <> [] -> m <> [] -> d <> [] -> h <> [] -> mi <> [] -> s <> [] ->
  c = Cal (decimal y) (decimal m) (decimal d) -> real_date c ->
  decimal h <= 2147483647 -> decimal mi <= 65535 -> decimal s <= 65535 ->
  time_from_string (stamp y m d h mi s) = Ret (ptime_of (Moment c 0 0 0) 0 + (3600 * decimal h + 60 * decimal mi + decimal s) * 1000000).
Proof.
  intros y m d h mi s c Dy Dm Dd Dh Dmi Ds Ny Nm Nd Nh Nmi Ns Ec R Bh Bm Bs. unfold time_from_string. rewrite stamp_split by assumption.
  rewrite (date_read y m d _ Dy Dm Dd Ny Nm Nd Ec R). cbn [bind].
  rewrite duration_read; try assumption. cbn [bind]. unfold ptime_of, SEC. cbn [mdate mhour mmin msec]. f_equal. lia.
Qed.
Print Assumptions C70_rollover.
(** A date alone is refused: the time of day is not optional. *)
Theorem C70_time_required : forall text, Forall (fun c => Ascii.eqb c " " = false) text -> forall p, time_from_string text <> Ret p.
Proof.
  intros text F p E. unfold time_from_string in E. rewrite split_none in E by exact F. apply bind_ret in E as (? & _ & E). discriminate.
Qed.
Print Assumptions C70_time_required.
(** In particular the documented spelling of every moment is read back. *)
Ltac Zify.zify_post_hook ::= Z.div_mod_to_equations.
Lemma two_ok z : 0 <= z < 100 -> digits (bs (two_digits z)) /\ bs (two_digits z) <> [] /\ decimal (bs (two_digits z)) = z.
Proof. intros H. destruct (two_digits_facts z H) as ((D & L) & E). repeat split; auto. intros N. rewrite N in L. discriminate. Qed.
Lemma four_ok z : 0 <= z < 10000 -> digits (bs (four_digits z)) /\ bs (four_digits z) <> [] /\ decimal (bs (four_digits z)) = z.
Proof. intros H. destruct (four_digits_facts z H) as (D & L & E). repeat split; auto. intros N. rewrite N in L. discriminate. Qed.
Lemma moment_bounds t : real_moment t -> (1400 <= cy (mdate t) <= 9999 /\ 1 <= cm (mdate t) <= 12 /\ 1 <= cd (mdate t) <= 31) /\ 0 <= mhour t < 24 /\ 0 <= mmin t < 60 /\ 0 <= msec t < 60.
Proof.
  intros ([[V1 V2] Y] & H1 & H2 & H3). pose proof (month_len_bounds (cy (mdate t)) (cm (mdate t)) V1). unfold in_range_year in Y. lia.
Qed.
Theorem C70_documented_format : forall t, real_moment t -> time_from_string (bs (plainly t)) = Ret (ptime_of t 0).
Proof.
  intros t R. pose proof (moment_bounds t R) as ((By & Bm & Bd) & Bh & Bmi & Bs).
  destruct (four_ok (cy (mdate t))) as (Dy & Ny & Ey); [lia|]. destruct (two_ok (cm (mdate t))) as (Dm & Nm & Em); [lia|]. destruct (two_ok (cd (mdate t))) as (Dd & Nd & Ed); [lia|].
  destruct (two_ok (mhour t)) as (Dh & Nh & Eh); [lia|]. destruct (two_ok (mmin t)) as (Dmi & Nmi & Emi); [lia|]. destruct (two_ok (msec t)) as (Ds & Ns & Es); [lia|].
  unfold plainly. rewrite !bs_append. apply C70_reference; auto. rewrite Ey, Em, Ed, Eh, Emi, Es. destruct t as [[? ? ?] ? ? ?]. reflexivity.
Qed.
Print Assumptions C70_documented_format.
Example C70_case : real_moment (Moment (Cal 2024 2 29) 23 59 8) /\ plainly (Moment (Cal 2024 2 29) 23 59 8) = "2024-02-29 23:59:08" /\
  time_from_string (bs "2024-02-29 23:59:08") = Ret (ptime_of (Moment (Cal 2024 2 29) 23 59 8) 0) /\
  time_from_string (bs "2024/2/29 5:1:2.25") = Ret (ptime_of (Moment (Cal 2024 2 29) 5 1 2) 250000) /\
  time_from_string (bs "2023-02-29 10:00:00") = Throw OutOfRange /\ time_from_string (bs "2023-02-28") = Throw OutOfRange.
Proof. split; [inst|]. do 4 (split; [vm_compute; reflexivity|]). vm_compute. reflexivity. Qed.

(** ** C71.  What the program prints can be given back to it as a reference date, and denotes the same moment. *)
Lemma abbrev_facts m : 1 <= m <= 12 -> free date_sep (bs (month_abbrev m)) /\ bs (month_abbrev m) <> [] /\ month_str (bs (month_abbrev m)) = Ret m /\
  Forall (fun c => Ascii.eqb c " " = false) (bs (month_abbrev m)).
Proof.
  intros H. assert (C : m = 1 \/ m = 2 \/ m = 3 \/ m = 4 \/ m = 5 \/ m = 6 \/ m = 7 \/ m = 8 \/ m = 9 \/ m = 10 \/ m = 11 \/ m = 12) by lia.
  decompose [or] C; subst; (split; [repeat constructor|split; [discriminate|split; [reflexivity|repeat constructor]]]).
Qed.
Theorem C71_printed_dates_read_back : forall t, real_moment t -> time_from_string (bs (written t)) = Ret (ptime_of t 0).
Proof.
  intros t R. pose proof (moment_bounds t R) as ((By & Bm & Bd) & Bh & Bmi & Bs).
  destruct (four_ok (cy (mdate t))) as (Dy & Ny & Ey); [lia|]. destruct (abbrev_facts (cm (mdate t)) Bm) as (Fm & Nm & Em & Gm). destruct (two_ok (cd (mdate t))) as (Dd & Nd & Ed); [lia|].
  destruct (two_ok (mhour t)) as (Dh & Nh & Eh); [lia|]. destruct (two_ok (mmin t)) as (Dmi & Nmi & Emi); [lia|]. destruct (two_ok (msec t)) as (Ds & Ns & Es); [lia|].
  unfold written. rewrite !bs_append. unfold time_from_string.
  match goal with |- context [split_blank (?y ++ ?a ++ ?m ++ ?b ++ ?d ++ ?c ++ ?h)] => 
    replace (y ++ a ++ m ++ b ++ d ++ c ++ h) with ((y ++ a ++ m ++ b ++ d) ++ c ++ h) by (rewrite <- !app_assoc; reflexivity) end.
  rewrite split_word by (repeat rewrite Forall_app; repeat split; auto using digits_not_blank; repeat constructor).
  unfold parse_date. rewrite date_tokens by (assumption || (apply digits_free; [exact date_sep_digit|assumption])).
  rewrite !cast_digits by assumption. rewrite Ey, Ed, Em. unfold USHRT_MAX. replace (65535 <? cy (mdate t)) with false by lia. replace (65535 <? cd (mdate t)) with false by lia.
  cbn [bind]. rewrite mk_date_real by apply R. cbn [bind]. rewrite duration_read; try assumption; rewrite ?Eh, ?Emi, ?Es; unfold INT_MAX, USHRT_MAX; try lia.
  cbn [bind]. unfold ptime_of. f_equal. lia.
Qed.
Print Assumptions C71_printed_dates_read_back.

(** ** C72.  The command line. *)
(** wrong number of arguments: the usage, nothing is parsed *)
Theorem C72_usage : forall e sortf now argv, (List.length argv < 2 \/ 3 < List.length argv)%nat -> program e sortf now argv = Ret usage.
Proof.
  intros e sortf now [|a [|b [|c [|d argv]]]] H; cbn [List.length] in H; try reflexivity; exfalso; lia.
Qed.
Print Assumptions C72_usage.
(** two arguments: the current time is the reference *)
Theorem C72_now_is_the_reference : forall e sortf now name text t us, now = ptime_of t us ->
  program e sortf now [name; text] = (out <- main e sortf gwords_init text (ptime_of t us) ;; Ret [out]).
Proof. intros. subst. reflexivity. Qed.
Print Assumptions C72_now_is_the_reference.
(** three arguments: the clock of the machine is irrelevant, the moment written is the reference, and it does not matter which of the
    two spellings is used *)
Theorem C72_written_reference : forall e sortf now name text ref t, real_moment t -> ref = bs (plainly t) \/ ref = bs (written t) ->
  program e sortf now [name; text; ref] = (out <- main e sortf gwords_init text (ptime_of t 0) ;; Ret [out]).
Proof.
  intros e sortf now name text ref t R [-> | ->]; cbn [program].
  - rewrite C70_documented_format by exact R. reflexivity.
  - rewrite C71_printed_dates_read_back by exact R. reflexivity.
Qed.
Print Assumptions C72_written_reference.
(** so "now" prints the reference back, and printing is a fixed point *)
Theorem C72_now_echoes : forall e sortf now name text ref t, is_sort sortf -> real_moment t -> ref = bs (plainly t) \/ ref = bs (written t) -> to_lower text = bs "now" ->
  program e sortf now [name; text; ref] = Ret [line (bs (written t))].
Proof.
  intros e sortf now name text ref t Hs R Er E. rewrite (C72_written_reference _ _ _ _ _ _ t R Er).
  rewrite (C54_now e sortf text t 0 Hs) by (assumption || (split; [exact R|unfold SEC; lia])). reflexivity.
Qed.
Print Assumptions C72_now_echoes.
(** an unreadable reference date ends the program without printing anything *)
Theorem C72_bad_reference : forall e sortf now name text ref x, time_from_string ref = Throw x -> program e sortf now [name; text; ref] = Throw x.
Proof. intros e sortf now name text ref x E. cbn [program]. rewrite E. reflexivity. Qed.
Print Assumptions C72_bad_reference.
Example C72_case : program env0 sort_stable 0 [bs "./main"; bs "Tomorrow"; bs "2024-02-28 08:00:00"] = Ret [line (bs "2024-Feb-29 00:00:00")] /\
  program env0 sort_stable 0 [bs "./main"] = Ret usage /\
  program env0 sort_stable 0 [bs "./main"; bs "today"; bs "yesterday"] = Throw BadCast.
Proof. do 2 (split; [vm_compute; reflexivity|]). vm_compute. reflexivity. Qed.
