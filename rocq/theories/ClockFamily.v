(** * ClockFamily: the clock-time phrases on which the pattern was run *)
From Verif Require Import Base Regex RegexFacts Symbolic Open ShapeRun Segments Spec View ParserSpec ClockSpec ParserRe AgoFacts RelativeRuns.
Open Scope string_scope.
Open Scope list_scope.
Open Scope nat_scope.

Lemma ck_digit : class_alike true time_expression_re is_digit "0" = true. Proof. vm_compute. reflexivity. Qed.
Lemma ck_blank : class_alike true time_expression_re (Ascii.eqb " ") " " = true. Proof. vm_compute. reflexivity. Qed.

(** ** The pieces: 0-1 the opening, 2 the hour; 0-5 minutes, seconds and fraction; 0-1 the marker *)
Definition sp_or_none : list (list (bool * ascii)) := [[]; sh_spaces].
Definition f_intro : family :=
  ([[]; []], [(1, [])]) :: flat_map (fun w => map (fun s => ([sh_word (bs w); s], [(1, [])])) sp_or_none) ["at"; "from"].
Definition f_hour : family := map (fun h => ([h], [(2, [2])])) ([sh_word (bs "noon"); sh_word (bs "midnight")] ++ map sh_digits [1; 2; 3; 4]).
Definition min_seps : list bytes := [bs ":"; bs "."; bs "："].
Definition sec_seps : list bytes := [bs ":"; bs "："].
Definition f_min : family :=
  ([[]; []; []; []; []; []], []) ::
  flat_map (fun s => flat_map (fun n => ([sh_word s; sh_digits n; []; []; []; []], [(3, [1])]) ::
    flat_map (fun s2 => ([sh_word s; sh_digits n; sh_word s2; sh_digits 2; []; []], [(4, [3]); (3, [1])]) ::
      map (fun f => ([sh_word s; sh_digits n; sh_word s2; sh_digits 2; sh_word (bs "."); sh_digits f], [(5, [5]); (4, [3]); (3, [1])])) [1; 2; 3; 4; 5; 6]) sec_seps) [1; 2]) min_seps.
Definition f_mark : family :=
  ([[]; []], []) :: flat_map (fun w => map (fun s => ([s; sh_word (bs (fst w))], [(6, [1])])) sp_or_none) marks.

(** ** The parts of the pattern *)
Definition r_hour : re := RCat (RGrp 1 te_lead) (RCat (ROpt false te_at) (RGrp 2 te_hour)).
Definition r_min : re := ROpt true te_min.
Definition r_mark : re := RCat (ROpt true (te_mer 6)) (RLook false te_look).
Definition r_to : re := RCat (ROpt true te_space) (ROpt true (RGrp 7 te_to)).
Lemma r_whole w o c : Segments.takes true (RCat r_hour (RCat r_min (RCat r_mark r_to))) None w [] o c -> Segments.takes true time_expression_re None w [] o c.
Proof. exact (fun x => x). Qed.
Lemma r_part r : In r [r_hour; r_min; r_mark; r_to; RCat r_mark r_to] -> Symbolic.part true time_expression_re r.
Proof.
  intros I c d H. unfold time_expression_re in H. cbn [agree] in H. repeat rewrite andb_true_iff in H. destruct H as (A1 & A2 & A3 & A4 & A5 & A6 & A7 & A8).
  cbn [In] in I. decompose [or] I; try contradiction; subst r; cbn [agree r_hour r_min r_mark r_to]; repeat rewrite andb_true_iff; auto.
Qed.

(** what may follow the hour, and what may follow the minutes *)
Definition after_hour : tail := Tail (fun c => negb (is_digit c)) true.
Definition not_more (c : ascii) : bool := negb (is_digit c || Ascii.eqb c "." || Ascii.eqb c ":" || Ascii.eqb c "239").
Definition after_min : tail := Tail not_more true.
Definition anything : tail := Tail (fun _ => true) true.
Definition f_start : family := times f_intro f_hour.
Lemma f_start_ok : forallb (seg_on true after_hour r_hour PStart []) f_start = true. Proof. vm_compute. reflexivity. Qed.
Lemma f_min_ok : forallb (fun b => forallb (seg_on true after_min r_min (PWord b) []) f_min) [true; false] = true. Proof. vm_compute. reflexivity. Qed.
Lemma f_mark_ok : forallb (fun b => forallb (seg_on true closed (RCat r_mark r_to) (PWord b) []) f_mark) [true; false] = true. Proof. vm_compute. reflexivity. Qed.

(** ** Ranges: 0 one space, 1 more spaces, 2 the word "to", 3 spaces, 4-12 the second time *)
Definition f_intro2 : family := [([[]; []], [(1, [])]); ([sh_word (bs "from"); sh_spaces], [(1, [])])].
Definition f_hour1 : family := map (fun h => ([h], [(2, [2])])) ([sh_word (bs "noon"); sh_word (bs "midnight")] ++ map sh_digits [1; 2; 4]).
Definition f_min1 : family := [([[]; []; []; []; []; []], []); ([sh_word (bs ":"); sh_digits 2; []; []; []; []], [(3, [1])])].
Definition f_mark1 : family := ([[]; []], []) :: flat_map (fun w => map (fun s => ([s; sh_word (bs (fst w))], [(6, [1])])) sp_or_none) am_pm.
Definition to_words : list bytes := [bs "-"; bs "–"; bs "~"; bs "to"].
Definition f_to : family :=
  flat_map (fun w => map (fun s => ([[]; []; sh_word w; s], [(9, [2]); (8, [1])])) sp_or_none) [bs "-"; bs "–"; bs "~"] ++
  flat_map (fun w => map (fun s => ([[(true, " "%char)]; [(false, " "%char)]; sh_word w; s], [(9, [2]); (8, [1])])) sp_or_none) to_words.
Definition f_hour2 : family := map (fun h => ([h], [(10, [4])])) (map sh_digits [1; 2; 4]).
Definition f_min2 : family := [([[]; []; []; []; []; []], []); ([sh_word (bs ":"); sh_digits 2; []; []; []; []], [(11, [6])])].
Definition whole_to : list (nat * list nat) := [(7, [1; 2; 3; 4; 5; 6; 7; 8; 9; 10; 11; 12]); (15, [])].
Definition f_mark2 : family :=
  ([[]; []], whole_to) :: flat_map (fun w => map (fun s => ([s; sh_word (bs (fst w))], whole_to ++ [(14, [12])])) sp_or_none) am_pm.
Definition f_second : family := times f_to (times f_hour2 (times f_min2 f_mark2)).
Definition f_start2 : family := times f_intro2 f_hour1.
Lemma f_start2_ok : forallb (seg_on true after_hour r_hour PStart []) f_start2 = true. Proof. vm_compute. reflexivity. Qed.
Lemma f_min1_ok : forallb (fun b => forallb (seg_on true after_min r_min (PWord b) []) f_min1) [true; false] = true. Proof. vm_compute. reflexivity. Qed.
Lemma f_mark1_ok : forallb (fun b => forallb (fun y => forallb (seg_on true anything r_mark (PWord b) (List.concat (fst y))) f_mark1) f_to) [true; false] = true. Proof. vm_compute. reflexivity. Qed.
Lemma f_second_ok : forallb (fun b => forallb (seg_on true closed r_to (PWord b) []) f_second) [true; false] = true. Proof. vm_compute. reflexivity. Qed.
