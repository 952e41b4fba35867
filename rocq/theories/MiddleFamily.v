(** * MiddleFamily: the month-day phrases on which the pattern was run *)
From Verif Require Import Base Regex RegexFacts Symbolic Open ShapeRun Segments Spec View ParserSpec PhraseSpec ClockSpec MiddleSpec ParserRe AgoFacts RelativeRuns.
Open Scope string_scope.
Open Scope list_scope.
Open Scope nat_scope.

Lemma md_digit : class_alike true middle_endian_re is_digit "0" = true. Proof. vm_compute. reflexivity. Qed.
Lemma md_blank : class_alike true middle_endian_re (Ascii.eqb " ") " " = true. Proof. vm_compute. reflexivity. Qed.

(** ** The parts of the pattern *)
Definition q_lead : re := RCat (WB 1) (ROpt true me_lead).
Definition q_month : re := RCat (RGrp 3 me_month) me_sep.
Definition q_day : re := RCat (RGrp 4 (RAlt (RCat (RGrp 5 D12) (ROpt true me_suffix)) me_ord1)) (RCat (RLook true me_ampm) SPp).
Definition q_to : re := ROpt true me_range.
Definition q_year : re := RCat (ROpt true me_year) (RCat (WB 12) (RLook true me_tail)).
Lemma nested a b c d e f g h i j k o w T o' cs : takes true (RCat (RCat a b) (RCat (RCat c d) (RCat (RCat e (RCat f g)) (RCat h (RCat i (RCat j k)))))) o w T o' cs ->
  takes true (RCat a (RCat b (RCat c (RCat d (RCat e (RCat f (RCat g (RCat h (RCat i (RCat j k)))))))))) o w T o' cs.
Proof. exact (fun x => x). Qed.
Lemma q_whole o w T o' c : takes true (RCat q_lead (RCat q_month (RCat q_day (RCat q_to q_year)))) o w T o' c -> takes true middle_endian_re o w T o' c.
Proof. apply nested. Qed.
Lemma q_part r : In r [q_lead; q_month; q_day; q_to; q_year] -> Symbolic.part true middle_endian_re r.
Proof.
  intros I c d H. unfold middle_endian_re in H. cbn [agree] in H. repeat rewrite andb_true_iff in H. destruct H as (A1 & A2 & A3 & A4 & A5 & A6 & A7 & A8 & A9 & A10 & A11).
  cbn [In] in I. decompose [or] I; try contradiction; subst r; cbn [agree q_lead q_month q_day q_to q_year]; repeat rewrite andb_true_iff; auto 10.
Qed.

(** ** The pieces *)
Definition months_all : list string := map fst month_names ++ map fst month_short_names ++ map (fun x => (fst x ++ ".")%string) month_short_names.
(** 0 "on ", 1 the weekday, 2 a comma, 3 spaces *)
Definition f_lead : family :=
  flat_map (fun on => flat_map (fun d => map (fun g => ([on; sh_word (bs (fst d)); fst g; snd g], [(2, [1]); (1, [])])) [([], sh_spaces); (sh_word (bs ","), []); (sh_word (bs ","), sh_spaces)]) weekday_words) [[]; sh_word (bs "on ")].
(** 0 the month, 1-2 the separator *)
Definition f_seps : list (list (bool * ascii) * list (bool * ascii)) :=
  [(sh_word (bs "-"), []); (sh_word (bs "/"), []); (sh_word (bs ","), []); (sh_word (bs ","), sh_spaces); ([], sh_spaces)].
Definition f_month (seps : list (list (bool * ascii) * list (bool * ascii))) : family := flat_map (fun m => map (fun s => ([sh_word (bs m); fst s; snd s], [(3, [0])])) seps) months_all.
(** 0 the day, 1 its suffix, 2 spaces *)
Definition suffixes : list string := [""; "st"; "nd"; "rd"; "th"].
Definition ordinals_all : list string := map fst ordinal_single ++ flat_map (fun c => map (fun w => ("twenty" ++ c ++ fst w)%string) ordinal_units ++ ["thirty" ++ c ++ "first"]%string) [" "; "-"].
Definition f_day_digits : family := flat_map (fun n => map (fun s => ([sh_digits n; sh_word (bs s); sh_spaces], [(4, [0; 1]); (5, [0])])) suffixes) [1; 2].
Definition f_day_words : family := map (fun w => ([sh_word (bs w); []; sh_spaces], [(4, [0; 1])])) ordinals_all.
(** 0 "to", 1 spaces, 2 the day, 3 its suffix, 4 spaces *)
Definition f_to_none : family := [([[]; []; []; []; []], [])].
Definition f_to_day : family :=
  flat_map (fun w => flat_map (fun sp => flat_map (fun n => map (fun s => ([sh_word (bs w); sp; sh_digits n; sh_word (bs s); sh_spaces], [(6, [2; 3]); (7, [2])])) suffixes) [1; 2]) [[]; sh_spaces]) ["to"; "-"].
(** 0 comma, 1 spaces, 2 the year, 3 spaces, 4 the era, 5 spaces *)
Definition f_commas : list (list (bool * ascii) * list (bool * ascii)) := [([], []); (sh_word (bs ","), []); (sh_word (bs ","), sh_spaces)].
Definition f_year : family :=
  ([[]; []; []; []; []; []], [(12, [])]) ::
  flat_map (fun c => ([fst c; snd c; sh_digits 4; []; []; sh_word (bs " ")], [(12, []); (8, [2])]) ::
    flat_map (fun sp => map (fun e => ([fst c; snd c; sh_digits 4; sp; sh_word (era_word e); sh_spaces], [(12, []); (9, [4]); (8, [2])])) [AD; BC; BE] ++
      flat_map (fun n => map (fun e => ([fst c; snd c; sh_digits n; sp; sh_word (era_word e); sh_spaces], [(12, []); (11, [4]); (10, [2])])) [AD; BC]) [1; 2; 3]) [[]; sh_spaces]) f_commas.

Definition anything : tail := Tail (fun _ => true) true.
Definition month_start : tail := Tail (fun c => existsb (Ascii.eqb c) (bs "jfmasond")) false.
Definition digit_next : tail := Tail is_digit false.
Definition ordinal_next : tail := Tail (fun c => existsb (Ascii.eqb c) (bs "fsten")) false.
Definition not_in (s : string) (c : ascii) : bool := Ascii.eqb (lower c) c && negb (existsb (Ascii.eqb c) (bs s)).
Definition after_day : tail := Tail (fun c => negb (is_space c) && not_in "ap" c) false.
Definition no_to : tail := Tail (fun c => negb (is_space c) && not_in "t-" c) false.
Definition no_space : tail := Tail (fun c => negb (is_space c)) false.
Definition word_next : tail := Tail (fun c => is_word c && negb (is_digit c) && not_in "abpt" c) false.
Definition seps_all := ([], []) :: f_seps.
(** other beginnings of the text that follows, with what the next character may be: a word that begins with a, b, p or t, or "to" and a word that is not a day *)
Definition seconds : list (string * tail) :=
  [("a", Tail (not_in "md") true); ("b", Tail (not_in "ce") true); ("p", Tail (not_in "m") true); ("t", Tail (not_in "o") true);
   ("to ", Tail (fun c => negb (is_space c) && negb (is_digit c) && not_in "fsten" c) true); ("to f", Tail (not_in "io") true); ("to s", Tail (not_in "ei") true); ("to se", Tail (not_in "cv") true);
   ("to n", Tail (not_in "i") true); ("to t", Tail (not_in "ehw") true); ("to th", Tail (not_in "i") true)].
Definition closely (tl : tail) (T : bytes) : Prop := tail_ok tl T \/ exists w s T', In (w, s) seconds /\ T = bs w ++ T' /\ tail_ok s T'.
Definition seg_two (tl : tail) (r : re) (p : pv) (f : family) : bool :=
  forallb (seg_on true tl r p []) f && forallb (fun x => forallb (seg_on true (snd x) r p (sh_word (bs (fst x)))) f) seconds.

Lemma f_lead_ok : forallb (seg_on true month_start q_lead PStart []) f_lead = true. Proof. vm_compute. reflexivity. Qed.
Lemma f_lead_ok' : forallb (seg_on true month_start q_lead (PWord false) []) f_lead = true. Proof. vm_compute. reflexivity. Qed.
Lemma f_month_digit_ok : forallb (seg_on true digit_next q_month PAny []) (f_month seps_all) = true. Proof. vm_compute. reflexivity. Qed.
Lemma f_month_word_ok : forallb (seg_on true ordinal_next q_month PAny []) (f_month f_seps) = true. Proof. vm_compute. reflexivity. Qed.
Lemma f_day_ok : seg_two after_day q_day PAny (f_day_digits ++ f_day_words) = true. Proof. vm_compute. reflexivity. Qed.
Lemma f_to_none_ok : seg_two no_to q_to (PWord false) f_to_none = true. Proof. vm_compute. reflexivity. Qed.
Lemma f_to_day_ok : forallb (seg_on true no_space q_to (PWord false) []) f_to_day = true. Proof. vm_compute. reflexivity. Qed.
Lemma f_year_ok : seg_two word_next q_year (PWord false) f_year = true. Proof. vm_compute. reflexivity. Qed.
