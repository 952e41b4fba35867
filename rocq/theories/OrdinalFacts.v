(** * OrdinalFacts: what the two std::regex_replace calls of argToOrdinalValue do to every string *)
From Verif Require Import Base Regex RegexParse Utils Spec View ParserSpec PhraseSpec RegexFacts ParserRe Symbolic.
From Coq Require Import ZifyBool ZifyNat ZifyN.
Open Scope string_scope.
Open Scope list_scope.
Open Scope Z_scope.
Local Open Scope nat_scope.

Lemma firstn_app_exact {A} (a b : list A) : firstn (List.length a) (a ++ b) = a.
Proof. rewrite firstn_app, firstn_all, Nat.sub_diag. cbn. apply app_nil_r. Qed.
Lemma skipn_app_exact {A} (a b : list A) : skipn (List.length a) (a ++ b) = b.
Proof. rewrite skipn_app, skipn_all, Nat.sub_diag. reflexivity. Qed.

(** ** Stepping through std::regex_replace *)
Definition shift_m (m : mres) : mres := {| m_pos := S (m_pos m); m_str := m_str m; m_caps := m_caps m |}.
Lemma search_from_shift ic r : forall t p n, search_from ic r p t (S n) = option_map shift_m (search_from ic r p t n).
Proof.
  induction t as [|c t IH]; intros p n; cbn [search_from]; destruct (rm ic r _ Some); cbn; try reflexivity. apply IH.
Qed.
Lemma loop_skip fuel r fmt p c t : (forall m, fmt (shift_m m) = fmt m) -> rm false r (mkst p (c :: t) []) Some = None ->
  regex_replace_loop (S fuel) r fmt p (c :: t) = (x <- regex_replace_loop (S fuel) r fmt (Some c) t ;; Ret (c :: x)).
Proof.
  intros Hf H. cbn [regex_replace_loop search_from]. rewrite H, search_from_shift.
  destruct (search_from false r (Some c) t 0) as [m|]; cbn [option_map]; [|reflexivity].
  cbn [shift_m m_pos m_str]. cbn [Nat.add firstn skipn rev].
  replace (match rev (firstn (m_pos m + List.length (m_str m)) t) ++ [c] with [] => p | x :: _ => Some x end)
    with (match rev (firstn (m_pos m + List.length (m_str m)) t) with [] => Some c | x :: _ => Some x end)
    by (destruct (rev _); reflexivity).
  destruct (regex_replace_loop fuel r fmt _ _); cbn; rewrite ?Hf; reflexivity.
Qed.
Lemma loop_end fuel r fmt p : rm false r (mkst p [] []) Some = None -> regex_replace_loop (S fuel) r fmt p [] = Ret [].
Proof. intros H. cbn [regex_replace_loop search_from]. rewrite H. reflexivity. Qed.
Lemma loop_hit fuel r fmt p w c t s : rm false r (mkst p (w ++ c :: t) []) Some = Some s -> Regex.s_rest s = t ->
  regex_replace_loop (S fuel) r fmt p (w ++ c :: t) =
  (x <- regex_replace_loop fuel r fmt (Some c) t ;; Ret (fmt {| m_pos := 0; m_str := w ++ [c]; m_caps := Regex.s_caps s |} ++ x)).
Proof.
  intros H E. cbn [regex_replace_loop].
  assert (S0 : search_from false r p (w ++ c :: t) 0 = Some {| m_pos := 0; m_str := w ++ [c]; m_caps := Regex.s_caps s |}).
  { destruct (w ++ c :: t) as [|x y] eqn:Q; cbn [search_from]; rewrite H; f_equal; f_equal; rewrite E, <- Q.
    - destruct w; discriminate.
    - rewrite app_length. cbn [List.length]. replace (List.length w + S (List.length t) - List.length t) with (List.length (w ++ [c])) by (rewrite app_length; cbn; lia).
      replace (w ++ c :: t) with ((w ++ [c]) ++ t) by (rewrite <- app_assoc; reflexivity). apply firstn_app_exact. }
  rewrite S0. cbn [m_pos m_str Nat.add firstn].
  replace (w ++ c :: t) with ((w ++ [c]) ++ t) by (rewrite <- app_assoc; reflexivity).
  rewrite firstn_app_exact, skipn_app_exact, rev_app_distr. cbn [rev app]. reflexivity.
Qed.

(** ** Hyphens to spaces *)
Definition dehyphen (c : ascii) : ascii := if Ascii.eqb c "-" then " "%char else c.
Definition HY : re := RSet false [CChar "-"].
Lemma hy_compile : compile (bs "-") = Some HY.
Proof. vm_compute. reflexivity. Qed.
Lemma hyphens : forall t fuel p, List.length t < fuel -> regex_replace_loop fuel HY (fun _ => bs " ") p t = Ret (map dehyphen t).
Proof.
  induction t as [|c t IH]; intros fuel p L; (destruct fuel as [|fuel]; [cbn in L; lia|]).
  - apply loop_end. reflexivity.
  - cbn [map]. unfold dehyphen at 1. destruct (Ascii.eqb c "-") eqn:E.
    + rewrite (loop_hit fuel HY _ p [] c t (mkst (Some c) t [])); [|cbn; rewrite E; reflexivity|reflexivity].
      rewrite IH by (cbn in L; lia). reflexivity.
    + rewrite loop_skip by (first [reflexivity | cbn; rewrite E; reflexivity]). rewrite IH by (cbn in L; lia). reflexivity.
Qed.

(** ** Runs of spaces *)
Definition SPC : re := RSet false [CChar " "].
Definition SPr : re := RCat SPC (RStar true SPC).
Definition RUN : re := RAlt (RCat RBol SPr) (RAlt (RCat SPr REol) (RCat (RGrp 1 SPC) SPr)).
Lemma run_compile : compile (bs "^ +| +$|( ) +") = Some RUN.
Proof. vm_compute. reflexivity. Qed.

Definition nospace (t : bytes) : Prop := match t with c :: _ => Ascii.eqb c " " = false | [] => True end.
Lemma star_run K rest : nospace rest -> forall k n p cs x, k + List.length rest < n -> 
  (forall p', K (mkst p' rest cs) = Some (x p')) ->
  exists p', rstar false true SPC K n (mkst p (repeat " "%char k ++ rest) cs) = Some (x p').
Proof.
  intros N. induction k as [|k IH]; intros n p cs x L H; (destruct n as [|n]; [lia|]); cbn [rstar]; fold (rstar false true SPC K).
  - cbn [repeat app]. unfold SPC at 1. cbn [rm Regex.s_rest]. destruct rest as [|c t].
    + exists p. apply H.
    + cbn in N. cbn [set_ok existsb item_ok xorb]. rewrite N. cbn. exists p. apply H.
  - cbn [repeat app]. unfold SPC at 1. cbn [rm Regex.s_rest]. cbn [set_ok existsb item_ok xorb orb Ascii.eqb Bool.eqb].
    cbn [Regex.s_rest Regex.s_caps List.length]. rewrite (proj2 (Nat.ltb_lt _ _)) by lia.
    destruct (IH n (Some " "%char) cs x ltac:(lia) H) as [p' E]. exists p'. rewrite E. reflexivity.
Qed.
Lemma star_dead K rest : nospace rest -> (forall p' j cs, K (mkst p' (repeat " "%char j ++ rest) cs) = None) -> forall k n p cs, 
  rstar false true SPC K n (mkst p (repeat " "%char k ++ rest) cs) = None.
Proof.
  intros N H. intros k n. revert k. induction n as [|n IH]; intros k p cs; [reflexivity|]; cbn [rstar]; fold (rstar false true SPC K).
  destruct k as [|k].
  - cbn [repeat app]. unfold SPC at 1. cbn [rm Regex.s_rest]. pose proof (H p 0 cs) as H0. cbn [repeat app] in H0. destruct rest as [|c t].
    + apply H0.
    + cbn in N. cbn [set_ok existsb item_ok xorb]. rewrite N. cbn. apply H0.
  - cbn [repeat app]. unfold SPC at 1. cbn [rm Regex.s_rest]. cbn [set_ok existsb item_ok xorb orb Ascii.eqb Bool.eqb].
    cbn [Regex.s_rest Regex.s_caps List.length]. rewrite (proj2 (Nat.ltb_lt _ _)) by lia. rewrite IH. apply (H p (S k) cs).
Qed.
Lemma spr_eq K p t cs : rm false SPr (mkst p (" "%char :: t) cs) K = rstar false true SPC K (S (List.length t)) (mkst (Some " "%char) t cs).
Proof. reflexivity. Qed.
Lemma spr_run K rest p cs k x : nospace rest -> (forall p', K (mkst p' rest cs) = Some (x p')) ->
  exists p', rm false SPr (mkst p (repeat " "%char (S k) ++ rest) cs) K = Some (x p').
Proof.
  intros N H. cbn [repeat app]. rewrite spr_eq.
  apply star_run; [exact N|rewrite app_length, repeat_length; lia|exact H].
Qed.
Lemma spr_dead K rest p cs k : nospace rest -> (forall p' j cs, K (mkst p' (repeat " "%char j ++ rest) cs) = None) ->
  rm false SPr (mkst p (repeat " "%char k ++ rest) cs) K = None.
Proof.
  intros N H. destruct k as [|k].
  - cbn [repeat app]. unfold SPr. cbn [rm]. unfold SPC at 1. cbn [rm Regex.s_rest]. destruct rest as [|c t]; [reflexivity|]. cbn in N. cbn [set_ok existsb item_ok xorb]. rewrite N. reflexivity.
  - cbn [repeat app]. rewrite spr_eq. apply star_dead; assumption.
Qed.

(** at the start of the string, and later *)
Definition eol_k (s : st) : option st := if at_eol s then Some s else None.
Lemma run_eq p t : rm false RUN (mkst p t []) Some =
  orelse (if match p with None => true | _ => false end then rm false SPr (mkst p t []) Some else None)
  (orelse (rm false SPr (mkst p t []) eol_k)
    (match t with c :: t' => if Ascii.eqb c " " then rm false SPr (mkst (Some c) t' [(1, consumed (mkst p t []) (mkst (Some c) t' []))]) Some else None | [] => None end)).
Proof.
  unfold RUN. cbn [rm]. unfold at_bol. cbn [Regex.s_prev].
  change (rm false SPr (mkst p t []) (fun s' => if at_eol s' then Some s' else None)) with (rm false SPr (mkst p t []) eol_k).
  destruct (match p with None => true | _ => false end).
  - destruct (rm false SPr (mkst p t []) Some); [reflexivity|]. cbn [orelse]. destruct (rm false SPr (mkst p t []) eol_k); [reflexivity|]. destruct t as [|c t]; [reflexivity|]. unfold SPC at 1; cbn [rm Regex.s_rest]; unfold set_ok; cbn [existsb item_ok xorb]; destruct (Ascii.eqb c " "); reflexivity.
  - cbn [orelse]. destruct (rm false SPr (mkst p t []) eol_k); [reflexivity|]. destruct t as [|c t]; [reflexivity|]. unfold SPC at 1; cbn [rm Regex.s_rest]; unfold set_ok; cbn [existsb item_ok xorb]; destruct (Ascii.eqb c " "); reflexivity.
Qed.
Lemma run_start k rest : nospace rest -> exists s, rm false RUN (mkst None (repeat " "%char (S k) ++ rest) []) Some = Some s /\ Regex.s_rest s = rest /\ Regex.s_caps s = [].
Proof.
  intros N. rewrite run_eq. destruct (spr_run Some rest None [] k (fun p' => mkst p' rest []) N (fun p' => eq_refl)) as [p' E].
  rewrite E. eexists. repeat split.
Qed.
Lemma run_last k c : exists s, rm false RUN (mkst (Some c) (repeat " "%char (S k)) []) Some = Some s /\ Regex.s_rest s = [] /\ Regex.s_caps s = [].
Proof.
  rewrite run_eq. 
  destruct (spr_run eol_k [] (Some c) [] k (fun p' => mkst p' [] []) I (fun p' => eq_refl)) as [p' E].
  rewrite app_nil_r in E. rewrite E. eexists. repeat split.
Qed.
Lemma eol_dead d rest p' j cs : eol_k (mkst p' (repeat " "%char j ++ d :: rest) cs) = None.
Proof. unfold eol_k, at_eol. cbn [Regex.s_rest]. destruct j; reflexivity. Qed.
Lemma consumed_one p c t cs cs' : consumed (mkst p (c :: t) cs) (mkst (Some c) t cs') = [c].
Proof. unfold consumed. cbn [Regex.s_rest List.length]. replace (S (List.length t) - List.length t) with 1 by lia. reflexivity. Qed.
Lemma run_middle k c d rest : Ascii.eqb d " " = false ->
  exists s, rm false RUN (mkst (Some c) (repeat " "%char (S (S k)) ++ d :: rest) []) Some = Some s /\ Regex.s_rest s = d :: rest /\ Regex.s_caps s = [(1, bs " ")].
Proof.
  intros N. rewrite run_eq.
  rewrite (spr_dead eol_k (d :: rest) (Some c) [] (S (S k)) N (eol_dead d rest)). cbn [orelse].
  cbn [repeat app]. rewrite consumed_one. cbn [Ascii.eqb Bool.eqb].
  destruct (spr_run Some (d :: rest) (Some " "%char) [(1, bs " ")] k (fun p' => mkst p' (d :: rest) [(1, bs " ")]) N (fun p' => eq_refl)) as [p' E].
  cbn [repeat app] in E. change (bs " ") with [" "%char] in *. rewrite E. eexists. repeat split.
Qed.
Lemma run_single c d rest : Ascii.eqb d " " = false -> rm false RUN (mkst (Some c) (" "%char :: d :: rest) []) Some = None.
Proof.
  intros N. rewrite run_eq.
  pose proof (spr_dead eol_k (d :: rest) (Some c) [] 1 N (eol_dead d rest)) as D. cbn [repeat app] in D. rewrite D. cbn [orelse].
  cbn [Ascii.eqb Bool.eqb]. unfold SPr, SPC. cbn [rm Regex.s_rest set_ok existsb item_ok xorb]. rewrite N. reflexivity.
Qed.
Lemma run_other p c rest : Ascii.eqb c " " = false -> rm false RUN (mkst p (c :: rest) []) Some = None.
Proof.
  intros N. unfold RUN, SPr, SPC. cbn [rm Regex.s_rest Regex.s_caps Regex.s_prev set_ok existsb item_ok xorb at_bol]. rewrite N. cbn. destruct p; reflexivity.
Qed.
Lemma run_nil p : rm false RUN (mkst p [] []) Some = None.
Proof. destruct p; reflexivity. Qed.

(** drop a space before a space or the end *)
Fixpoint norm (t : bytes) : bytes :=
  match t with
  | [] => []
  | c :: t' => if Ascii.eqb c " " then match t' with [] => [] | d :: _ => if Ascii.eqb d " " then norm t' else c :: norm t' end else c :: norm t'
  end.
Fixpoint trim (t : bytes) : bytes := match t with c :: t' => if Ascii.eqb c " " then trim t' else t | [] => [] end.
Lemma run_split : forall t, exists k rest, t = repeat " "%char k ++ rest /\ nospace rest.
Proof.
  induction t as [|c t (k & r & E & N)]; [exists 0, []; split; [reflexivity|exact I]|].
  destruct (Ascii.eqb_spec c " ") as [->|D].
  - exists (S k), r. rewrite E. split; [reflexivity|exact N].
  - exists 0, (c :: t). split; [reflexivity|]. cbn. apply Ascii.eqb_neq. exact D.
Qed.
Lemma norm_run k d rest : Ascii.eqb d " " = false -> norm (repeat " "%char (S k) ++ d :: rest) = " "%char :: norm (d :: rest).
Proof.
  intros N. induction k as [|k IH].
  - cbn [repeat app norm Ascii.eqb Bool.eqb]. rewrite N. reflexivity.
  - cbn [repeat app] in *. cbn [norm Ascii.eqb Bool.eqb] in *. exact IH.
Qed.
Lemma norm_spaces k : norm (repeat " "%char k) = [].
Proof. induction k as [|k IH]; [reflexivity|]. cbn [repeat norm Ascii.eqb Bool.eqb]. destruct k; [reflexivity|exact IH]. Qed.
Lemma trim_run k rest : nospace rest -> trim (repeat " "%char k ++ rest) = rest.
Proof. intros N. induction k as [|k IH]; [destruct rest; [reflexivity|]; cbn in *; rewrite N; reflexivity|]. cbn [repeat app trim Ascii.eqb Bool.eqb]. exact IH. Qed.

Lemma repeat_snoc (c : ascii) k : repeat c (S k) = repeat c k ++ [c].
Proof. induction k as [|k IH]; [reflexivity|]. cbn [repeat app] in *. f_equal. exact IH. Qed.
Lemma loop_run n fuel p k rest s : rm false RUN (mkst p (repeat " "%char (S k) ++ rest) []) Some = Some s -> Regex.s_rest s = rest ->
  regex_replace_loop (S fuel) RUN (fun m => grp m n) p (repeat " "%char (S k) ++ rest) =
  (x <- regex_replace_loop fuel RUN (fun m => grp m n) (Some " "%char) rest ;; Ret (grp {| m_pos := 0; m_str := repeat " "%char (S k); m_caps := Regex.s_caps s |} n ++ x)).
Proof.
  intros H E. rewrite repeat_snoc, <- app_assoc in *. cbn [app] in *. rewrite (loop_hit fuel RUN _ p _ _ rest s H E). reflexivity.
Qed.
Lemma later_runs : forall n t fuel c, List.length t <= n -> List.length t < fuel ->
  regex_replace_loop fuel RUN (fun m => grp m 1) (Some c) t = Ret (norm t).
Proof.
  induction n as [|n IH]; intros t fuel c L F; (destruct fuel as [|fuel]; [lia|]).
  - destruct t; [|cbn in L; lia]. apply loop_end, run_nil.
  - destruct (run_split t) as (k & rest & -> & N). destruct k as [|k].
    + cbn [repeat app]. destruct rest as [|d rest]; [apply loop_end, run_nil|]. cbn in N.
      rewrite loop_skip by (first [reflexivity | apply run_other; exact N]). cbn [app repeat List.length] in L, F. rewrite IH by lia. cbn [bind norm]. rewrite N. reflexivity.
    + rewrite app_length, repeat_length in L, F. destruct rest as [|d rest].
      * destruct (run_last k c) as (s & E & R & C). rewrite (loop_run 1 fuel (Some c) k [] s) by (rewrite ?app_nil_r; assumption).
        rewrite IH by (cbn; lia). rewrite C, app_nil_r, norm_spaces. reflexivity.
      * cbn in N. rewrite norm_run by exact N. destruct k as [|k].
        -- cbn [repeat app]. rewrite loop_skip by (first [reflexivity | apply run_single; exact N]). cbn [List.length] in L, F. rewrite IH by (cbn [List.length]; lia). reflexivity.
        -- destruct (run_middle k c d rest N) as (s & E & R & C). rewrite (loop_run 1 fuel (Some c) (S k) (d :: rest) s) by assumption.
           cbn [List.length] in L, F. rewrite IH by (cbn [List.length]; lia). rewrite C. reflexivity.
Qed.
Lemma all_runs t fuel : List.length t < fuel -> regex_replace_loop fuel RUN (fun m => grp m 1) None t = Ret (norm (trim t)).
Proof.
  intros F. destruct fuel as [|fuel]; [lia|]. destruct (run_split t) as (k & rest & -> & N). rewrite trim_run by exact N. destruct k as [|k].
  - cbn [repeat app]. destruct rest as [|d rest]; [apply loop_end, run_nil|]. cbn in N.
    rewrite loop_skip by (first [reflexivity | apply run_other; exact N]). cbn [app repeat List.length] in F. rewrite (later_runs (List.length rest)) by lia. cbn [bind norm]. rewrite N. reflexivity.
  - rewrite app_length, repeat_length in F. destruct (run_start k rest N) as (s & E & R & C).
    rewrite (loop_run 1 fuel None k rest s) by assumption. rewrite (later_runs (List.length rest)) by lia. rewrite C. reflexivity.
Qed.

(** ** The whole function *)
Lemma eqb_dehyphen_lower c : lower (dehyphen c) = dehyphen (lower c).
Proof. apply Ascii.eqb_eq. revert c. apply (forall_ascii (fun c => Ascii.eqb (lower (dehyphen c)) (dehyphen (lower c)))). vm_compute. reflexivity. Qed.
Lemma eqb_space_lower c : Ascii.eqb (lower c) " " = Ascii.eqb c " ".
Proof. apply Bool.eqb_prop. revert c. apply (forall_ascii (fun c => Bool.eqb (Ascii.eqb (lower c) " ") (Ascii.eqb c " "))). vm_compute. reflexivity. Qed.
Lemma trim_lower t : to_lower (trim t) = trim (to_lower t).
Proof. induction t as [|c t IH]; [reflexivity|]. cbn [to_lower map trim]. rewrite eqb_space_lower. destruct (Ascii.eqb c " "); [exact IH|reflexivity]. Qed.
Lemma norm_lower t : to_lower (norm t) = norm (to_lower t).
Proof.
  induction t as [|c t IH]; [reflexivity|]. cbn [to_lower map norm]. rewrite eqb_space_lower. unfold to_lower in IH.
  destruct (Ascii.eqb c " "); cbn [to_lower map]; [|unfold to_lower; cbn [map]; rewrite IH; reflexivity].
  destruct t as [|d t]; [reflexivity|]. cbn [map] in *. rewrite eqb_space_lower. destruct (Ascii.eqb d " "); [exact IH|].
  unfold to_lower. cbn [map]. rewrite IH. reflexivity.
Qed.
Definition clean (t : bytes) : bytes := norm (trim (map dehyphen t)).
Lemma dehyphen_lower t : to_lower (map dehyphen t) = map dehyphen (to_lower t).
Proof. unfold to_lower. rewrite !map_map. apply map_ext. apply eqb_dehyphen_lower. Qed.
Lemma ordinal_value t : argToOrdinalValue t = Ret (tbl_get (clean (to_lower t)) ORDINAL_WORDS).
Proof.
  unfold argToOrdinalValue, with_re, regex_replace. rewrite hy_compile, hyphens by lia. cbn [bind]. rewrite run_compile, all_runs by lia. cbn [bind].
  rewrite norm_lower, trim_lower. unfold clean. rewrite dehyphen_lower. reflexivity.
Qed.

(** ** Which strings clean up to a given word or pair of words *)
Definition plain (w : bytes) : Prop := Forall (fun c => Ascii.eqb c " " = false /\ Ascii.eqb c "-" = false) w.
Lemma norm_word w y : plain w -> norm (w ++ y) = w ++ norm y.
Proof. induction 1 as [|c w [A _] H IH]; [reflexivity|]. cbn [app norm]. rewrite A, IH. reflexivity. Qed.
Lemma plain_dehyphen w : plain w -> map dehyphen w = w.
Proof. induction 1 as [|c w [A B] H IH]; [reflexivity|]. cbn [map]. unfold dehyphen at 1. rewrite B, IH. reflexivity. Qed.
Lemma gaps_spaces s : gaps s -> map dehyphen s = repeat " "%char (List.length s).
Proof. induction 1 as [|c s [-> | ->] H IH]; [reflexivity| |]; cbn [map List.length repeat]; rewrite IH; reflexivity. Qed.
Lemma spaces_gaps s k : map dehyphen s = repeat " "%char k -> gaps s.
Proof.
  revert k. induction s as [|c s IH]; intros k E; [constructor|]. destruct k as [|k]; [discriminate|]. cbn [map repeat] in E. injection E as E1 E2. 
  constructor; [|exact (IH k E2)]. unfold dehyphen in E1. destruct (Ascii.eqb_spec c "-"); [right; assumption|left; exact E1].
Qed.
Lemma plain_start w y : plain w -> w <> [] -> nospace (w ++ y).
Proof. intros [|c v [A _] _] H; [contradiction|]. exact A. Qed.
Lemma clean_one s w s' : gaps s -> gaps s' -> plain w -> w <> [] -> clean (s ++ w ++ s') = w.
Proof.
  intros G G' P N. unfold clean. rewrite !map_app, (gaps_spaces s G), (gaps_spaces s' G'), (plain_dehyphen w P).
  rewrite trim_run by (apply plain_start; assumption). rewrite norm_word, norm_spaces, app_nil_r by assumption. reflexivity.
Qed.
Lemma clean_two s w g v s' : gaps s -> gaps g -> gaps s' -> plain w -> w <> [] -> plain v -> v <> [] -> g <> [] ->
  clean (s ++ w ++ g ++ v ++ s') = w ++ " "%char :: v.
Proof.
  intros G Gg G' P N Pv Nv Ng. unfold clean. rewrite !map_app, (gaps_spaces s G), (gaps_spaces g Gg), (gaps_spaces s' G'), (plain_dehyphen w P), (plain_dehyphen v Pv).
  rewrite trim_run by (apply plain_start; assumption). rewrite norm_word by assumption.
  destruct g as [|c g]; [contradiction|]. destruct v as [|d v]; [contradiction|]. cbn [List.length].
  change ((d :: v) ++ repeat " "%char (List.length s')) with (d :: (v ++ repeat " "%char (List.length s'))).
  rewrite norm_run by (inversion Pv; tauto).
  change (d :: (v ++ repeat " "%char (List.length s'))) with ((d :: v) ++ repeat " "%char (List.length s')).
  rewrite norm_word, norm_spaces, app_nil_r by assumption. reflexivity.
Qed.
Lemma norm_nil_inv y : norm y = [] -> exists k, y = repeat " "%char k.
Proof.
  destruct (run_split y) as (k & rest & -> & N). destruct rest as [|d rest]; [exists k; apply app_nil_r|]. cbn in N.
  destruct k; [cbn; rewrite N; discriminate|]. rewrite norm_run by exact N. discriminate.
Qed.
Lemma norm_word_inv w : forall y z, plain w -> norm y = w ++ z -> exists y', y = w ++ y' /\ norm y' = z.
Proof.
  induction w as [|c w IH]; intros y z P E; [exists y; split; [reflexivity|exact E]|].
  inversion P as [|? ? [A _] P']; subst. destruct (run_split y) as (k & rest & -> & N). destruct k as [|k].
  - cbn [repeat app] in *. destruct rest as [|d rest]; [discriminate|]. cbn in N. cbn [norm] in E. rewrite N in E. injection E as -> E.
    destruct (IH rest z P' E) as (y' & -> & E'). exists y'. split; [reflexivity|exact E'].
  - exfalso. destruct rest as [|d rest].
    + rewrite app_nil_r, norm_spaces in E. discriminate.
    + cbn in N. rewrite norm_run in E by exact N. injection E as E _. subst c. discriminate.
Qed.
Lemma norm_space_inv y z : norm y = " "%char :: z -> exists k y', y = repeat " "%char (S k) ++ y' /\ nospace y' /\ norm y' = z.
Proof.
  intros E. destruct (run_split y) as (k & rest & -> & N). destruct k as [|k].
  - cbn [repeat app] in *. destruct rest as [|d rest]; [discriminate|]. cbn in N. cbn [norm] in E. rewrite N in E. injection E as -> E. discriminate.
  - exists k, rest. destruct rest as [|d rest].
    + rewrite app_nil_r, norm_spaces in E. discriminate.
    + cbn in N. rewrite norm_run in E by exact N. injection E as E. split; [reflexivity|split; assumption].
Qed.
Lemma map_app_inv {A B} (f : A -> B) : forall l a b, map f l = a ++ b -> exists x y, l = x ++ y /\ map f x = a /\ map f y = b.
Proof.
  intros l a. revert l. induction a as [|c a IH]; intros l b E; [exists [], l; repeat split; exact E|].
  destruct l as [|d l]; [discriminate|]. cbn in E. injection E as E1 E2. destruct (IH l b E2) as (x & y & -> & <- & <-). exists (d :: x), y. subst c. repeat split.
Qed.
Lemma dehyphen_plain v w : plain w -> map dehyphen v = w -> v = w.
Proof.
  intros P. revert v. induction P as [|c w [A B] H IH]; intros v E; (destruct v as [|d v]; [try reflexivity; discriminate|]); [discriminate|].
  cbn in E. injection E as E1 E2. rewrite (IH v E2). f_equal. unfold dehyphen in E1. destruct (Ascii.eqb_spec d "-") as [->|D]; [|exact E1]. subst c. discriminate.
Qed.
Lemma trim_inv t : exists k, t = repeat " "%char k ++ trim t /\ nospace (trim t).
Proof. destruct (run_split t) as (k & rest & -> & N). exists k. rewrite trim_run by exact N. split; [reflexivity|exact N]. Qed.
Lemma clean_one_inv t w : plain w -> clean t = w -> exists s s', t = s ++ w ++ s' /\ gaps s /\ gaps s'.
Proof.
  intros P E. unfold clean in E. destruct (trim_inv (map dehyphen t)) as (k & Et & N). rewrite <- (app_nil_r w) in E.
  destruct (norm_word_inv w _ _ P E) as (y & Ey & Ny). destruct (norm_nil_inv y Ny) as (j & Ej). rewrite Ey, Ej in Et.
  destruct (map_app_inv _ _ _ _ Et) as (s & r & -> & Es & Er). destruct (map_app_inv _ _ _ _ Er) as (v & s' & -> & Ev & Es').
  rewrite (dehyphen_plain v w P Ev). exists s, s'. repeat split; eapply spaces_gaps; eassumption.
Qed.
Lemma clean_two_inv t w v : plain w -> plain v -> v <> [] -> clean t = w ++ " "%char :: v ->
  exists s g s', t = s ++ w ++ g ++ v ++ s' /\ gaps s /\ gaps g /\ g <> [] /\ gaps s'.
Proof.
  intros P Pv Nv E. unfold clean in E. destruct (trim_inv (map dehyphen t)) as (k & Et & N).
  destruct (norm_word_inv w _ _ P E) as (y & Ey & Ny). destruct (norm_space_inv y _ Ny) as (i & y2 & E2 & N2 & Ny2).
  rewrite <- (app_nil_r v) in Ny2. destruct (norm_word_inv v _ _ Pv Ny2) as (y3 & Ey3 & Ny3). destruct (norm_nil_inv y3 Ny3) as (j & Ej).
  rewrite Ey, E2, Ey3, Ej in Et.
  destruct (map_app_inv _ _ _ _ Et) as (s & r & -> & Es & Er). destruct (map_app_inv _ _ _ _ Er) as (v1 & r2 & -> & Ev & Er2).
  destruct (map_app_inv _ _ _ _ Er2) as (g & r3 & -> & Eg & Er3). destruct (map_app_inv _ _ _ _ Er3) as (v2 & s' & -> & Ev2 & Es').
  rewrite (dehyphen_plain v1 w P Ev), (dehyphen_plain v2 v Pv Ev2). exists s, g, s'. repeat split; try (eapply spaces_gaps; eassumption).
  intros ->. discriminate Eg.
Qed.
