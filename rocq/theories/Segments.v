(** * Segments: running a pattern part by part.

    The matcher tries the first way to match a part first; so if every part, run on its own, takes exactly its own piece of the
    text, then so does the whole pattern.  This replaces one run per combination of pieces by one run per piece. *)
From Verif Require Import Base Regex RegexFacts Symbolic Open ShapeRun.
From Coq Require Import ZifyBool ZifyNat ZifyN.
Local Open Scope nat_scope.
Local Open Scope list_scope.

(** ** Captures made earlier do not matter *)
Definition addc (c0 : list (nat * bytes)) (x : st) : st := mkst (s_prev x) (s_rest x) (s_caps x ++ c0).
Lemma rm_frame ic c0 : forall r x K K', (forall x', K' (addc c0 x') = option_map (addc c0) (K x')) ->
  rm ic r (addc c0 x) K' = option_map (addc c0) (rm ic r x K).
Proof.
  induction r as [|neg items|a IHa b IHb|a IHa b IHb|g a IHa|g a IHa|n a IHa| | |neg|neg a IHa]; intros x K K' H;
    lazymatch goal with |- context [RStar] => idtac | _ => cbn [rm] end.
  - apply H.
  - cbn [s_rest addc s_caps]. destruct (s_rest x) as [|c t]; [reflexivity|]. destruct (set_ok ic neg items c); [|reflexivity]. apply (H (mkst (Some c) t (s_caps x))).
  - apply IHa. intros x'. apply IHb. exact H.
  - rewrite (IHa x K K' H). destruct (rm ic a x K); [reflexivity|]. apply IHb. exact H.
  - rewrite !rm_star_eq. cbn [s_rest addc]. generalize (S (List.length (s_rest x))) as n. intros n. revert x. induction n as [|n IHn]; intros x; [reflexivity|].
    cbn [rstar]. fold (rstar ic g a K) (rstar ic g a K').
    assert (A : rm ic a (addc c0 x) (fun s' => if Nat.ltb (List.length (s_rest s')) (List.length (s_rest (addc c0 x))) then rstar ic g a K' n s' else None) =
                option_map (addc c0) (rm ic a x (fun s' => if Nat.ltb (List.length (s_rest s')) (List.length (s_rest x)) then rstar ic g a K n s' else None))).
    { apply IHa. intros x'. cbn [addc s_rest]. destruct (Nat.ltb _ _); [|reflexivity]. apply IHn. }
    rewrite A, H. destruct g; [destruct (rm ic a x _); reflexivity|destruct (K x); reflexivity].
  - rewrite (IHa x K K' H), (H x). destruct g; [destruct (rm ic a x K); reflexivity|destruct (K x); reflexivity].
  - apply IHa. intros x'. exact (H (mkst (s_prev x') (s_rest x') ((n, consumed x x') :: s_caps x'))).
  - change (at_bol (addc c0 x)) with (at_bol x). destruct (at_bol x); [apply H|reflexivity].
  - change (at_eol (addc c0 x)) with (at_eol x). destruct (at_eol x); [apply H|reflexivity].
  - change (at_wb (addc c0 x)) with (at_wb x). destruct (xorb neg (at_wb x)); [apply H|reflexivity].
  - rewrite (IHa x Some Some) by reflexivity. rewrite (H x). destruct (rm ic a x Some); cbn [option_map]; destruct neg; reflexivity.
Qed.

(** ** The first way to match is the one taken if the rest then matches *)
Lemma rm_first_gen ic x1 z : forall r x K0 K, (forall x', K0 x' = None -> K x' = None) -> (forall x', K0 x' = Some x1 -> K x' = Some z) ->
  (rm ic r x K0 = None -> rm ic r x K = None) /\ (rm ic r x K0 = Some x1 -> rm ic r x K = Some z).
Proof.
  induction r as [|neg items|a IHa b IHb|a IHa b IHb|g a IHa|g a IHa|n a IHa| | |neg|neg a IHa]; intros x K0 K HN HS;
    lazymatch goal with |- context [RStar] => idtac | _ => cbn [rm] end.
  - split; auto.
  - destruct (s_rest x) as [|c t]; [split; [auto|discriminate]|]. destruct (set_ok ic neg items c); [split; auto|split; [auto|discriminate]].
  - apply IHa; intros x'; apply IHb; assumption.
  - destruct (IHa x K0 K HN HS) as [A1 A2], (IHb x K0 K HN HS) as [B1 B2]. destruct (rm ic a x K0) as [y|] eqn:E.
    + split; [discriminate|]. intros Q. injection Q as ->. rewrite A2 by reflexivity. reflexivity.
    + rewrite A1 by reflexivity. split; assumption.
  - rewrite !rm_star_eq. generalize (S (List.length (s_rest x))) as n. intros n. revert x. induction n as [|n IHn]; intros x; [cbn; split; [auto|discriminate]|].
    cbn [rstar]. fold (rstar ic g a K) (rstar ic g a K0).
    destruct (IHa x (fun s' => if Nat.ltb (List.length (s_rest s')) (List.length (s_rest x)) then rstar ic g a K0 n s' else None)
                    (fun s' => if Nat.ltb (List.length (s_rest s')) (List.length (s_rest x)) then rstar ic g a K n s' else None)) as [A1 A2].
    { intros x'. destruct (Nat.ltb _ _); [apply IHn|auto]. }
    { intros x'. destruct (Nat.ltb _ _); [apply IHn|discriminate]. }
    specialize (HN x). specialize (HS x).
    destruct g.
    + match type of A1 with ?e = None -> _ => destruct e as [y|] end.
      * split; [discriminate|]. intros Q. injection Q as ->. rewrite A2 by reflexivity. reflexivity.
      * rewrite A1 by reflexivity. split; assumption.
    + destruct (K0 x) as [y|].
      * split; [discriminate|]. intros Q. injection Q as ->. rewrite HS by reflexivity. reflexivity.
      * rewrite HN by reflexivity. split; assumption.
  - destruct (IHa x K0 K HN HS) as [A1 A2]. specialize (HN x). specialize (HS x). destruct g.
    + destruct (rm ic a x K0) as [y|].
      * split; [discriminate|]. intros Q. injection Q as ->. rewrite A2 by reflexivity. reflexivity.
      * rewrite A1 by reflexivity. split; assumption.
    + destruct (K0 x) as [y|].
      * split; [discriminate|]. intros Q. injection Q as ->. rewrite HS by reflexivity. reflexivity.
      * rewrite HN by reflexivity. split; assumption.
  - apply IHa; intros x'; auto.
  - destruct (at_bol x); [split; auto|split; [auto|discriminate]].
  - destruct (at_eol x); [split; auto|split; [auto|discriminate]].
  - destruct (xorb neg (at_wb x)); [split; auto|split; [auto|discriminate]].
  - destruct (rm ic a x Some), neg; split; auto; discriminate.
Qed.
Lemma rm_first ic r x x1 K z : rm ic r x Some = Some x1 -> K x1 = Some z -> rm ic r x K = Some z.
Proof.
  intros E H. apply (proj2 (rm_first_gen ic x1 z r x Some K ltac:(discriminate) ltac:(intros x' Q; injection Q as ->; exact H))). exact E.
Qed.

(** ** [r], after the character [o], takes the text [w] when [T] follows *)
Definition takes (ic : bool) (r : re) (o : option ascii) (w T : bytes) (o' : option ascii) (c : list (nat * bytes)) : Prop :=
  rm ic r (mkst o (w ++ T) []) Some = Some (mkst o' T c).
Lemma takes_cat ic a b o w w' T o1 o2 c c' : takes ic a o w (w' ++ T) o1 c -> takes ic b o1 w' T o2 c' -> takes ic (RCat a b) o (w ++ w') T o2 (c' ++ c).
Proof.
  unfold takes. intros A B. cbn [rm]. rewrite <- app_assoc. apply (rm_first _ _ _ _ _ _ A).
  pose proof (rm_frame ic c b (mkst o1 (w' ++ T) []) Some Some ltac:(reflexivity)) as F. unfold addc in F at 1. cbn [s_prev s_rest s_caps app] in F. rewrite F, B. reflexivity.
Qed.
Lemma takes_search ic r w o c : takes ic r None w [] o c -> search ic r w = Some {| m_pos := 0; m_str := w; m_caps := c |}.
Proof.
  unfold takes, search. rewrite app_nil_r. intros H. destruct w as [|x w]; cbn [search_from]; rewrite H; cbn [s_rest s_caps]; [reflexivity|]. do 2 f_equal. unfold consumed. cbn [s_rest]. rewrite Nat.sub_0_r. apply firstn_all.
Qed.

(** ** A part of a pattern, run on labelled pieces *)
Definition pv_word (p : pv) : bool := match p with PWord _ => true | _ => false end.
Definition seg_on (ic : bool) (tl : tail) (r : re) (p : pv) (ahead : list (bool * ascii)) (x : list (list (bool * ascii)) * list (nat * list nat)) : bool :=
  let sh := List.concat (fst x) ++ ahead in
  let L := labels 0 sh in
  if Nat.leb (List.length sh) 256 then
  match yrm ic tl r (mky p L [] 0) Yes with
  | Yes s => if pv_word (y_prev s) then if Nat.eqb (List.length (y_items s)) (List.length ahead) then
               caps_eqb (y_caps s) (from_segs (cut (map (@List.length _) (fst x)) L) (snd x)) else false else false
  | _ => false
  end else false.
Definition caps_of (segs : list (list sitem)) (b : list (nat * list nat)) : list (nat * bytes) :=
  map (fun x => (fst x, List.concat (map (fun i => items_text (nth i segs [])) (snd x)))) b.
Lemma caps_from segs b : caps_text (from_segs segs b) = caps_of segs b.
Proof.
  unfold caps_text, from_segs, caps_of. rewrite map_map. apply map_ext. intros [n is]. cbn [fst snd]. f_equal. induction is as [|i is IH]; [reflexivity|]. cbn [map List.concat]. rewrite items_text_app, IH. reflexivity.
Qed.
Lemma cut_concat_app {A} (segs : list (list A)) ex : cut (map (@List.length A) segs) (List.concat segs ++ ex) = segs.
Proof.
  induction segs as [|s segs IH]; [reflexivity|]. cbn. rewrite <- app_assoc, firstn_app, Nat.sub_diag, firstn_all. cbn. rewrite app_nil_r. f_equal.
  rewrite skipn_app, skipn_all, Nat.sub_diag. exact IH.
Qed.
Theorem seg_ok ic R tl r p ah segs b o T : part ic R r -> seg_on ic tl r p (map shape_of ah) (map (map shape_of) segs, b) = true ->
  Forall (item_ok' ic R) (List.concat segs) -> Forall (item_ok' ic R) ah -> tail_ok tl T -> prev_ok p o ->
  exists o' q, takes ic r o (items_text (List.concat segs)) (items_text ah ++ T) o' (caps_of segs b) /\ prev_ok (PWord q) o'.
Proof.
  intros HP H G Ga HT Ho. unfold seg_on in H. cbn [fst snd] in H. rewrite <- concat_map, <- map_app in H. destruct (Nat.leb_spec (List.length (map shape_of (List.concat segs ++ ah))) 256) as [HL|]; [|discriminate]. rewrite map_length in HL.
  set (L := List.concat segs ++ ah) in *.
  pose proof (unlab_labels L HL [] L eq_refl) as F. cbn [List.length] in F.
  assert (N : r3r (fun i j => weak i j /\ j = unlab L i) (yrm ic tl r (mky p (labels 0 (map shape_of L)) [] 0) Yes) (yrm ic tl r (mky p L [] 0) Yes)).
  { apply yrm_natural; [intros i j W; exact (proj1 W)| | |]; [|intros y y' Hy; exact Hy..]. split; [reflexivity|]. split; [exact F|]. split; [constructor|reflexivity]. }
  destruct (yrm ic tl r (mky p (labels 0 (map shape_of L)) [] 0) Yes) as [s| |]; [|discriminate..].
  destruct (yrm ic tl r (mky p L [] 0) Yes) as [s'| |] eqn:Ey; cbn [r3r] in N; try contradiction. destruct N as (N1 & N2 & N3 & _).
  destruct (pv_word (y_prev s)) eqn:Hq; [|discriminate]. destruct (Nat.eqb_spec (List.length (y_items s)) (List.length (map shape_of ah))) as [Hl|]; [|discriminate]. apply caps_eqb_eq in H.
  assert (Ga' : Forall (item_ok' ic R) L) by (apply Forall_app; auto).
  assert (Hr : rel ic R T (mky p L [] 0) (mkst o (items_text L ++ T) [])) by (split; [exact Ho|split; [reflexivity|split; [reflexivity|exact Ga']]]).
  pose proof (yrm_sound ic R tl T HT r HP _ _ Yes Some Hr ltac:(intros s0 x0 _ _ R'; exists x0; auto) ltac:(intros s0 x0 _ _; exists x0; auto)) as A.
  rewrite Ey in A. cbn [agrees] in A. destruct A as (z & Ez & (Zp & Zr & Zc & _)).
  destruct (yrm_suffix _ _ _ _ _ _ Ey ltac:(intros s0 _ y' Q; injection Q as ->; apply suffix_refl)) as [pre Q]. cbn in Q.
  assert (Ei : y_items s' = ah).
  { rewrite map_length in Hl. rewrite (Forall2_len _ _ _ N2) in Hl. unfold L in Q. assert (LL : List.length pre = List.length (List.concat segs)) by (apply (f_equal (@List.length _)) in Q; rewrite !app_length in Q; lia).
    clear - Q LL. revert pre LL Q. generalize (List.concat segs) as u. induction u as [|x u IH]; intros [|y pre] LL Q; try discriminate; cbn in *; [auto|]. injection Q as _ Q. apply (IH pre); auto. }
  assert (Ec : y_caps s' = from_segs segs b).
  { assert (Ec : y_caps s' = map (fun x => (fst x, map (unlab L) (snd x))) (y_caps s)).
    { clear - N3. induction N3 as [|[n x] [n' y] c c' [E Fx] Fc IH]; [reflexivity|]. cbn in *. subst n'. rewrite (unlab_eq _ _ _ Fx), IH at 1. reflexivity. }
    rewrite Ec, H, <- from_segs_map, <- cut_map, <- (unlab_eq _ _ _ F). f_equal. rewrite map_map.
    replace (map (fun x => List.length (map shape_of x)) segs) with (map (@List.length sitem) segs) by (apply map_ext; intros; symmetry; apply map_length). apply cut_concat_app. }
  rewrite N1 in Hq. destruct (y_prev s') as [|q|] eqn:Ep; try discriminate. exists (s_prev z), q. split; [|exact Zp].
  unfold takes. unfold L in Ez. rewrite items_text_app, <- app_assoc in Ez. rewrite Ez. rewrite Ec, caps_from in Zc. rewrite Ei in Zr. destruct z as [zp zr zc]. cbn in *. subst. reflexivity.
Qed.
