(** * Symbolic: running the matcher on texts some of whose characters are only known up to a class.

    A text is given as a list of pairs (actual character, representative).  If each actual character is treated by
    every set of the pattern like its representative, the matcher does on the actual text what it does on the
    representatives; and that run can be computed. *)
From Verif Require Import Base Regex RegexFacts.
From Coq Require Import ZifyBool ZifyNat ZifyN.

Notation pchar := (ascii * ascii)%type.
Record zst := zmk { z_prev : option pchar; z_rest : list pchar; z_caps : list (nat * list pchar) }.

Definition z_word (o : option pchar) : bool := match o with Some c => is_word (snd c) | None => false end.
Definition z_consumed (s s' : zst) : list pchar := firstn (List.length (z_rest s) - List.length (z_rest s')) (z_rest s).

(** Regex.rm, looking only at the representatives *)
Fixpoint zrm (ic : bool) (r : re) (s : zst) (k : zst -> option zst) {struct r} : option zst :=
  match r with
  | REps => k s
  | RSet neg items =>
      match z_rest s with
      | [] => None
      | c :: t => if set_ok ic neg items (snd c) then k (zmk (Some c) t (z_caps s)) else None
      end
  | RCat a b => zrm ic a s (fun s' => zrm ic b s' k)
  | RAlt a b => match zrm ic a s k with Some x => Some x | None => zrm ic b s k end
  | RStar greedy a =>
      (fix star (n : nat) (s : zst) {struct n} : option zst :=
         match n with
         | O => None
         | S n' =>
             if greedy then
               match zrm ic a s (fun s' => if Nat.ltb (List.length (z_rest s')) (List.length (z_rest s)) then star n' s' else None) with
               | Some x => Some x
               | None => k s
               end
             else
               match k s with
               | Some x => Some x
               | None => zrm ic a s (fun s' => if Nat.ltb (List.length (z_rest s')) (List.length (z_rest s)) then star n' s' else None)
               end
         end) (S (List.length (z_rest s))) s
  | ROpt greedy a =>
      if greedy then match zrm ic a s k with Some x => Some x | None => k s end
      else match k s with Some x => Some x | None => zrm ic a s k end
  | RGrp n a => zrm ic a s (fun s' => k (zmk (z_prev s') (z_rest s') ((n, z_consumed s s') :: z_caps s')))
  | RBol => if match z_prev s with None => true | Some _ => false end then k s else None
  | REol => if match z_rest s with [] => true | _ => false end then k s else None
  | RWb neg => if xorb neg (xorb (z_word (z_prev s)) (z_word (hd_error (z_rest s)))) then k s else None
  | RLook neg a =>
      match zrm ic a s Some with
      | Some _ => if neg then None else k s
      | None => if neg then k s else None
      end
  end.
Fixpoint zsearch_from (ic : bool) (r : re) (prev : option pchar) (t : list pchar) (pos : nat) : option (nat * list pchar * list (nat * list pchar)) :=
  match zrm ic r (zmk prev t []) Some with
  | Some s => Some (pos, firstn (List.length t - List.length (z_rest s)) t, z_caps s)
  | None => match t with
            | [] => None
            | c :: t' => zsearch_from ic r (Some c) t' (S pos)
            end
  end.

(** back to actual characters *)
Definition acts (l : list pchar) : bytes := map fst l.
Definition act_st (s : zst) : st := mkst (option_map fst (z_prev s)) (acts (z_rest s)) (map (fun x => (fst x, acts (snd x))) (z_caps s)).
Definition act_res (x : nat * list pchar * list (nat * list pchar)) : mres :=
  let '(p, w, c) := x in {| m_pos := p; m_str := acts w; m_caps := map (fun x => (fst x, acts (snd x))) c |}.

(** the actual character behaves like its representative in [r] *)
Fixpoint agree (ic : bool) (r : re) (c d : ascii) : bool :=
  match r with
  | RSet neg items => Bool.eqb (set_ok ic neg items c) (set_ok ic neg items d)
  | RCat a b | RAlt a b => agree ic a c d && agree ic b c d
  | RStar _ a | ROpt _ a | RGrp _ a | RLook _ a => agree ic a c d
  | _ => true
  end.
Definition alike (ic : bool) (r : re) (p : pchar) : Prop := agree ic r (fst p) (snd p) = true /\ is_word (fst p) = is_word (snd p).
Definition good (ic : bool) (r : re) (s : zst) : Prop :=
  Forall (alike ic r) (z_rest s) /\ match z_prev s with Some c => is_word (fst c) = is_word (snd c) | None => True end.

Lemma acts_length l : List.length (acts l) = List.length l.
Proof. apply map_length. Qed.
Lemma act_consumed s s' : consumed (act_st s) (act_st s') = acts (z_consumed s s').
Proof. unfold consumed, z_consumed, act_st, acts. cbn [Regex.s_rest]. rewrite !map_length, firstn_map. reflexivity. Qed.
Lemma good_sub ic r r' s : (forall c d, agree ic r c d = true -> agree ic r' c d = true) -> good ic r s -> good ic r' s.
Proof. intros H [A B]. split; [|exact B]. revert A. apply Forall_impl. intros p [C D]. split; auto. Qed.

(** [sub] is a part of [r]: whoever is alike in [r] is alike in [sub] *)
Definition part (ic : bool) (r sub : re) : Prop := forall c d, agree ic r c d = true -> agree ic sub c d = true.

Definition rstar (ic g : bool) (a : re) (K : st -> option st) : nat -> st -> option st :=
 fix star (n : nat) (s : st) {struct n} : option st :=
  match n with
  | O => None
  | S n' =>
      if g then
        match rm ic a s (fun s' => if Nat.ltb (List.length (Regex.s_rest s')) (List.length (Regex.s_rest s)) then star n' s' else None) with
        | Some x => Some x
        | None => K s
        end
      else
        match K s with
        | Some x => Some x
        | None => rm ic a s (fun s' => if Nat.ltb (List.length (Regex.s_rest s')) (List.length (Regex.s_rest s)) then star n' s' else None)
        end
  end.
Definition zstar (ic g : bool) (a : re) (k : zst -> option zst) : nat -> zst -> option zst :=
 fix star (n : nat) (s : zst) {struct n} : option zst :=
  match n with
  | O => None
  | S n' =>
      if g then
        match zrm ic a s (fun s' => if Nat.ltb (List.length (z_rest s')) (List.length (z_rest s)) then star n' s' else None) with
        | Some x => Some x
        | None => k s
        end
      else
        match k s with
        | Some x => Some x
        | None => zrm ic a s (fun s' => if Nat.ltb (List.length (z_rest s')) (List.length (z_rest s)) then star n' s' else None)
        end
  end.
Lemma rm_star_eq ic g a s K : rm ic (RStar g a) s K = rstar ic g a K (S (List.length (Regex.s_rest s))) s.
Proof. reflexivity. Qed.
Lemma zrm_star_eq ic g a s k : zrm ic (RStar g a) s k = zstar ic g a k (S (List.length (z_rest s))) s.
Proof. reflexivity. Qed.

Lemma zrm_sim ic R : forall r, part ic R r -> forall s K k, good ic R s ->
  (forall s', good ic R s' -> K (act_st s') = option_map act_st (k s')) ->
  rm ic r (act_st s) K = option_map act_st (zrm ic r s k).
Proof.
  induction r as [|neg items|a IHa b IHb|a IHa b IHb|g a IHa|g a IHa|n a IHa| | |neg|neg a IHa]; intros Hp s K k G HK;
    lazymatch goal with |- context [RStar] => idtac | _ => cbn [rm zrm] end.
  - apply HK. exact G.
  - destruct s as [pv rs cs]. cbn [act_st Regex.s_rest acts z_prev z_rest z_caps map]. destruct rs as [|[c d] rs]; cbn [map]; [reflexivity|].
    cbn [fst snd]. destruct G as [G1 G2]. cbn [z_rest z_prev] in *. inversion G1 as [|? ? [A W] G1']; subst. cbn [fst snd] in *.
    pose proof (Hp _ _ A) as E. cbn [agree] in E. apply Bool.eqb_prop in E. rewrite E. destruct (set_ok ic neg items d); [|reflexivity].
    change (mkst (Some c) (map fst rs) (Regex.s_caps _)) with (act_st (zmk (Some (c, d)) rs cs)). apply HK. split; cbn; assumption.
  - apply IHa; [intros c d A; specialize (Hp c d A); cbn in Hp; apply andb_prop in Hp; apply Hp|exact G|].
    intros s' G'. apply IHb; [intros c d A; specialize (Hp c d A); cbn in Hp; apply andb_prop in Hp; apply Hp|exact G'|exact HK].
  - rewrite (IHa ltac:(intros c d A; specialize (Hp c d A); cbn in Hp; apply andb_prop in Hp; apply Hp) s K k G HK). destruct (zrm ic a s k); [reflexivity|]. cbn [option_map].
    apply IHb; [intros c d A; specialize (Hp c d A); cbn in Hp; apply andb_prop in Hp; apply Hp|exact G|exact HK].
  - rewrite rm_star_eq, zrm_star_eq. replace (List.length (Regex.s_rest (act_st s))) with (List.length (z_rest s)) by (symmetry; apply acts_length).
    generalize (S (List.length (z_rest s))) as n. intros n. revert s G. induction n as [|n IHn]; intros s G; [reflexivity|].
    cbn [rstar zstar]. fold (rstar ic g a K). fold (zstar ic g a k).
    assert (HK' : forall s', good ic R s' ->
      (if Nat.ltb (List.length (Regex.s_rest (act_st s'))) (List.length (Regex.s_rest (act_st s))) then rstar ic g a K n (act_st s') else None) =
      option_map act_st (if Nat.ltb (List.length (z_rest s')) (List.length (z_rest s)) then zstar ic g a k n s' else None)).
    { intros s' G'. cbn [act_st Regex.s_rest]. rewrite !acts_length. destruct (Nat.ltb _ _); [|reflexivity]. apply IHn. exact G'. }
    destruct g.
    + rewrite (IHa Hp s _ _ G HK'). destruct (zrm ic a s _); [reflexivity|]. apply HK. exact G.
    + rewrite (HK s G). destruct (k s); [reflexivity|]. cbn [option_map]. apply (IHa Hp s _ _ G HK').
  - destruct g.
    + rewrite (IHa Hp s K k G HK). destruct (zrm ic a s k); [reflexivity|]. apply HK. exact G.
    + rewrite (HK s G). destruct (k s); [reflexivity|]. apply (IHa Hp s K k G HK).
  - apply IHa; [exact Hp|exact G|]. intros s' G'. rewrite act_consumed.
    change (mkst _ _ _) with (act_st (zmk (z_prev s') (z_rest s') ((n, z_consumed s s') :: z_caps s'))). apply HK. exact G'.
  - unfold at_bol. destruct s as [[p|] rs cs]; cbn [act_st Regex.s_prev option_map z_prev]; [reflexivity|]. apply HK. exact G.
  - unfold at_eol. destruct s as [pv [|c rs] cs]; cbn [act_st Regex.s_rest acts map z_rest]; [|reflexivity]. apply HK. exact G.
  - assert (E : at_wb (act_st s) = xorb (z_word (z_prev s)) (z_word (hd_error (z_rest s)))).
    { destruct G as [G1 G2]. unfold at_wb. destruct s as [pv rs cs]. cbn [act_st Regex.s_prev Regex.s_rest z_prev z_rest] in *. f_equal.
      - destruct pv; [exact G2|reflexivity].
      - destruct rs as [|p rs]; [reflexivity|]. inversion G1 as [|? ? [_ W] _]; subst. exact W. }
    rewrite E. destruct (xorb neg _); [|reflexivity]. apply HK. exact G.
  - rewrite (IHa Hp s Some Some G ltac:(reflexivity)). destruct (zrm ic a s Some); cbn [option_map]; destruct neg; try reflexivity; apply HK; exact G.
Qed.

Lemma zsearch_from_ok ic r : forall l prev pos, good ic r (zmk prev l []) ->
  search_from ic r (option_map fst prev) (acts l) pos = option_map act_res (zsearch_from ic r prev l pos).
Proof.
  induction l as [|c l IH]; intros prev pos G; cbn [search_from zsearch_from acts map].
  - change (mkst (option_map fst prev) [] []) with (act_st (zmk prev [] [])). rewrite (zrm_sim ic r r ltac:(intros ? ? A; exact A) _ _ Some G ltac:(reflexivity)).
    destruct (zrm ic r _ Some) as [s'|]; cbn [option_map]; [|reflexivity]. cbn. reflexivity.
  - change (mkst (option_map fst prev) (fst c :: map fst l) []) with (act_st (zmk prev (c :: l) [])).
    rewrite (zrm_sim ic r r ltac:(intros ? ? A; exact A) _ _ Some G ltac:(reflexivity)).
    destruct (zrm ic r _ Some) as [s'|]; cbn [option_map].
    + unfold act_res. f_equal. f_equal. change (fst c :: map fst l) with (acts (c :: l)). cbn [act_st Regex.s_rest]. rewrite !acts_length. unfold acts. rewrite firstn_map. reflexivity.
    + apply (IH (Some c) (S pos)). destruct G as [G1 _]. cbn [z_rest] in G1. inversion G1 as [|? ? [_ W] G']; subst. split; assumption.
Qed.
Theorem symbolic_search ic r l : Forall (alike ic r) l -> search ic r (acts l) = option_map act_res (zsearch_from ic r None l 0).
Proof. intros H. apply (zsearch_from_ok ic r l None 0). split; [exact H|exact I]. Qed.

(** ** establishing [alike] *)
Lemma alike_self ic r c : alike ic r (c, c).
Proof.
  split; [|reflexivity]. cbn [fst snd]. induction r; cbn [agree]; rewrite ?Bool.eqb_reflx; auto. all: rewrite IHr1, IHr2; reflexivity.
Qed.
Definition all_ascii : list ascii := Eval vm_compute in map (fun n => ascii_of_nat n) (seq 0 256).
Lemma all_ascii_eq : all_ascii = map (fun n => ascii_of_nat n) (seq 0 256). Proof. vm_compute. reflexivity. Qed.
Lemma all_ascii_in c : In c all_ascii.
Proof.
  rewrite all_ascii_eq. apply in_map_iff. exists (nat_of_ascii c). split; [apply ascii_nat_embedding|].
  apply in_seq. pose proof (nat_ascii_bounded c). lia.
Qed.
(** every character of the class [f] may be represented by [d] *)
Definition class_alike (ic : bool) (r : re) (f : ascii -> bool) (d : ascii) : bool :=
  forallb (fun c => agree ic r c d && Bool.eqb (is_word c) (is_word d)) (filter f all_ascii).
Strategy 1000 [all_ascii].
Lemma filtered_all {A} (g f : A -> bool) L c : forallb g (filter f L) = true -> In c L -> f c = true -> g c = true.
Proof. intros H I F. rewrite forallb_forall in H. apply H. apply filter_In. auto. Qed.
Lemma class_alike_ok ic r f d : class_alike ic r f d = true -> forall c, f c = true -> alike ic r (c, d).
Proof.
  unfold class_alike, alike. cbn [fst snd]. generalize all_ascii_in. generalize all_ascii. intros L HL H c F.
  pose proof (filtered_all (fun c => agree ic r c d && Bool.eqb (is_word c) (is_word d)) f L c H (HL c) F) as G. cbn beta in G.
  apply andb_prop in G as [A W]. apply Bool.eqb_prop in W. exact (conj A W).
Qed.
