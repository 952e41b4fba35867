(** * MatchFacts: what a match of each pattern looks like, for every text *)
From Verif Require Import Base Regex RegexParse Calendar Components Utils Execute View ParserSpec RegexFacts ExecuteFacts ParserRe.
From Coq Require Import ZifyBool ZifyNat ZifyN.

(** a word boundary between the previous character and the rest *)
Definition wb_at (p : option ascii) (t : bytes) : Prop := xorb (word_opt p) (word_opt (hd_error t)) = true.

Lemma xorb_F b : xorb false b = b.
Proof. destruct b; reflexivity. Qed.
Lemma mt_WB ic n p t c s' : mt ic (WB n) (mkst p t c) s' -> wb_at p t /\ s' = mkst p t ((n, []) :: c).
Proof.
  intros (s1 & [H ->] & ->). rewrite xorb_F in H. split; [exact H|]. unfold consumed. cbn. rewrite Nat.sub_diag. reflexivity.
Qed.
Lemma mt_WB_intro ic n p t c : wb_at p t -> mt ic (WB n) (mkst p t c) (mkst p t ((n, []) :: c)).
Proof.
  intros H. exists (mkst p t c). split; [split; [rewrite xorb_F; exact H|reflexivity]|]. unfold consumed. cbn. rewrite Nat.sub_diag. reflexivity.
Qed.
Lemma mt_grp_gen ic n r p t c s' : mt ic (RGrp n r) (mkst p t c) s' ->
  exists s1 w, mt ic r (mkst p t c) s1 /\ t = w ++ s_rest s1 /\ lang ic r w /\
               s' = mkst (s_prev s1) (s_rest s1) ((n, w) :: s_caps s1).
Proof.
  intros (s1 & M & ->). destruct (mt_word _ _ _ _ M) as (w & cs & E & P & L & C & F). cbn [Regex.s_rest] in E.
  exists s1, w. repeat split; auto. f_equal. f_equal. f_equal. apply consumed_eq. exact E.
Qed.

Ltac mt_crack H :=
  lazymatch type of H with
  | mt _ (RCat _ _) _ _ =>
      let s1 := fresh "s" in let Ha := fresh "M" in
      destruct H as (s1 & Ha & H); mt_crack Ha; mt_crack H
  | mt _ (WB _) _ _ => let Hw := fresh "Hwb" in apply mt_WB in H as [Hw H]; subst
  | mt _ (RGrp _ _) _ _ =>
      let w := fresh "w" in let t := fresh "t" in let E := fresh "E" in let L := fresh "L" in
      apply mt_grp_inv in H; [|reflexivity]; destruct H as (w & t & E & L & H); subst
  | mt _ (ROpt _ _) _ _ => destruct H as [H|H]; [subst|mt_crack H]
  | mt _ (RLook _ _) _ _ => let Hl := fresh "Hlook" in destruct H as [H Hl]; subst
  | mt _ _ _ _ =>
      let w := fresh "w" in let t := fresh "t" in let E := fresh "E" in let L := fresh "L" in
      apply mt_plain_inv in H; [|reflexivity]; destruct H as (w & t & E & L & H); subst
  | _ => idtac
  end.

(** from the end state of a run back to the match object *)
Definition same (a b : bytes) : Prop := a = b.
Lemma search_shape ic r t m : search ic r t = Some m ->
  exists pre suf s', t = pre ++ m_str m ++ s_rest s' /\ m_pos m = List.length pre /\
    same suf (m_str m ++ s_rest s') /\
    mt ic r (mkst (lastc pre None) suf []) s' /\ m_caps m = s_caps s'.
Proof.
  intros H. destruct (search_split _ _ _ _ H) as (pre & post & E & P & L & _ & M).
  exists pre, (m_str m ++ post), (mkst (lastc (m_str m) (lastc pre None)) post (m_caps m)). cbn. repeat split; auto.
Qed.
Ltac shape H :=
  let pre := fresh "pre" in let suf := fresh "suf" in let s' := fresh "s'" in
  let E := fresh "Et" in let P := fresh "Pos" in let Es := fresh "Es" in let M := fresh "M" in let C := fresh "C" in
  destruct (search_shape _ _ _ _ H) as (pre & suf & s' & E & P & Es & M & C).
Ltac shape_end Es :=
  cbn [Regex.s_rest Regex.s_caps] in *; unfold same in Es; rewrite ?app_assoc in Es; apply app_inv_tail in Es;
  rewrite <- ?app_assoc in Es.

Lemma low_part pre w post : low (pre ++ w ++ post) -> low w.
Proof. intros H. apply low_app in H as [_ H]. apply low_app in H as [H _]. exact H. Qed.
Lemma low_skipn n t : low t -> low (skipn n t).
Proof. intros H. rewrite <- (firstn_skipn n t) in H. apply low_app in H. apply H. Qed.

(** blanks *)

Lemma SPs_blanks ic w : lang ic SPs w -> blanks w.
Proof.
  intros L. eapply (only_ok ic is_space SPs); [|exact L]. destruct ic; vm_compute; reflexivity.
Qed.
Lemma SPp_blanks ic w : lang ic SPp w -> blanks w /\ w <> [].
Proof.
  intros L. split.
  - eapply (only_ok ic is_space SPp); [|exact L]. destruct ic; vm_compute; reflexivity.
  - intros ->. pose proof (min_len_ok _ _ _ L). cbn in H. lia.
Qed.
Lemma blanks_SPs ic w : blanks w -> lang ic SPs w.
Proof.
  intros B. exists (map (fun c => [c]) w). split.
  - induction w as [|c w IH]; [reflexivity|]. inversion B; subst. cbn. f_equal. apply IH. assumption.
  - induction B as [|c w Hc B IH]; cbn [map]; constructor; [|exact IH]. split; [discriminate|].
    exists c. split; [reflexivity|]. unfold set_ok. cbn. rewrite Hc. reflexivity.
Qed.
Lemma blanks_SPp ic w : blanks w -> w <> [] -> lang ic SPp w.
Proof.
  intros B N. destruct w as [|c w]; [congruence|]. inversion B; subst. exists [c], w. split; [reflexivity|]. split.
  - exists c. split; [reflexivity|]. unfold set_ok. cbn. rewrite H1. reflexivity.
  - apply blanks_SPs. assumption.
Qed.

(** digits *)

(** ** casual dates *)
Lemma casual_date_match t m : search true casual_date_re t = Some m ->
  exists pre post, t = pre ++ m_str m ++ post /\ m_pos m = List.length pre /\
    lang true cd_words (m_str m) /\ m_caps m = [(3%nat, []); (2%nat, m_str m); (1%nat, [])] /\
    wb_at (lastc pre None) (m_str m ++ post).
Proof.
  intros H. shape H. unfold casual_date_re in M. mt_crack M. shape_end Es. subst w.
  exists pre. eexists. repeat split; eauto.
Qed.

(** ** casual times *)
Lemma casual_time_match t m : search true casual_time_re t = Some m ->
  exists pre post this sp w, t = pre ++ m_str m ++ post /\ m_pos m = List.length pre /\
    m_str m = this ++ sp ++ w /\ (this = [] \/ lang true ct_this this) /\ blanks sp /\ lang true ct_words w /\
    grp m 4 = w.
Proof.
  intros H. shape H. unfold grp. rewrite C. clear C. unfold casual_time_re in M.
  destruct M as (s1 & M1 & M). mt_crack M1. destruct M as (s2 & M2 & M3).
  apply mt_grp_gen in M2 as (s3 & w & M2 & Ew & _ & ->). fold (same suf (w ++ s_rest s3)) in Ew. mt_crack M3.
  mt_crack M2; shape_end Es; shape_end Ew; subst w; rewrite <- Es in *.
  - match goal with Lw : lang _ SPs ?sp, Lx : lang _ ct_words ?x |- _ => eexists pre, _, [], sp, x end.
    repeat split; eauto. eapply SPs_blanks; eassumption.
  - match goal with Lt : lang _ ct_this ?th, Lw : lang _ SPs ?sp, Lx : lang _ ct_words ?x |- _ => eexists pre, _, th, sp, x end.
    repeat split; eauto. eapply SPs_blanks; eassumption.
Qed.

(** ** deadlines *)
Lemma deadline_match t m : search true deadline_re t = Some m ->
  exists pre post kw s1 n s2 u, t = pre ++ m_str m ++ post /\ m_pos m = List.length pre /\
    m_str m = kw ++ s1 ++ n ++ s2 ++ u /\ lang true dl_kw kw /\ blanks s1 /\ s1 <> [] /\ lang true dl_num n /\
    blanks s2 /\ s2 <> [] /\ lang true dl_unit u /\ grp m 3 = n /\ grp m 4 = u.
Proof.
  intros H. shape H. unfold grp. rewrite C. clear C. unfold deadline_re in M. mt_crack M. 
  shape_end Es. rewrite <- Es in *. clear Es.
  repeat match goal with L : lang _ SPp _ |- _ => apply SPp_blanks in L as [? ?] end.
  eexists pre, _, _, _, _, _, _. repeat split; eauto.
Qed.
