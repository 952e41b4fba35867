(** * ResultFacts: properties of ParsedComponents and ParsedResult *)
From Verif Require Import Base Calendar Components Spec View CalendarCycle CalendarFacts.
From Coq Require Import ZifyBool ZifyNat ZifyN.
Ltac Zify.zify_post_hook ::= Z.div_mod_to_equations.
Open Scope string_scope.
Open Scope list_scope.
Open Scope Z_scope.

Lemma api_get_name f p : api_get f p = pc_get (field_name f) p.
Proof. destruct f; reflexivity. Qed.
Lemma api_set_name f v p : api_set f v p = pc_set (field_name f) v p.
Proof. destruct f; reflexivity. Qed.
Lemma implied_get_name f v p : implied_is f v p -> pc_get (field_name f) p = v.
Proof. intros (_ & _ & H). rewrite <- api_get_name. exact H. Qed.

Lemma field_eqb_refl f : field_eqb f f = true.
Proof. apply String.eqb_refl. Qed.
Lemma field_eqb_spec f g : field_eqb f g = true <-> f = g.
Proof. split; [destruct f, g; intros H; try reflexivity; discriminate H | intros ->; apply field_eqb_refl]. Qed.

(** implyComponent is [imply_field] on the eight names and the identity otherwise. *)
Definition published (n : string) : bool := existsb (fun f => String.eqb n (field_name f)) all_fields.
Lemma imply_published f v p : implyComponent (field_name f) v p = imply_field (field_name f) v p.
Proof. destruct f; reflexivity. Qed.
Lemma imply_unpublished n v p : published n = false -> implyComponent n v p = p.
Proof.
  unfold published, all_fields; cbn [existsb field_name]. unfold implyComponent.
  intros H. repeat (let E := fresh in apply orb_false_elim in H as [E H]; rewrite E). reflexivity.
Qed.
Lemma published_inv n : published n = true -> exists f, n = field_name f.
Proof.
  unfold published. intros H. apply existsb_exists in H as (f & _ & E). apply String.eqb_eq in E. exists f. exact E.
Qed.
Lemma published_or n : (exists f, n = field_name f) \/ (published n = false).
Proof. destruct (published n) eqn:E; [left; apply published_inv; exact E|right; reflexivity]. Qed.

(** The state of one field after a history. *)
Lemma cops_known h f :
  known (run_cops h) (field_name f) =
  match last_set f h with Some v => (true, v) | None => (false, 0) end.
Proof.
  induction h as [|[g v|n v] h IH]; cbn [run_cops fold_right do_cop last_set]; [reflexivity| |].
  - rewrite api_set_name. unfold pc_set, cput; cbn [known].
    unfold field_eqb. rewrite String.eqb_sym. destruct (String.eqb _ _); [reflexivity|exact IH].
  - destruct (published_or n) as [(g & ->)|U].
    + rewrite imply_published. unfold imply_field. destruct (fst _); exact IH.
    + rewrite imply_unpublished by exact U. exact IH.
Qed.

Lemma cops_implied h f : last_set f h = None ->
  implied (run_cops h) (field_name f) =
  match last_implied f h with Some v => (true, v) | None => (false, 0) end.
Proof.
  induction h as [|[g v|n v] h IH]; cbn [run_cops fold_right do_cop last_set last_implied]; intros HN; [reflexivity| |].
  - destruct (field_eqb g f) eqn:E; [discriminate|]. rewrite api_set_name. unfold pc_set, cput; cbn [implied].
    unfold field_eqb in E. rewrite String.eqb_sym, E. apply IH; exact HN.
  - fold (run_cops h).
    destruct (String.eqb n (field_name f)) eqn:E.
    + apply String.eqb_eq in E as ->. rewrite imply_published. unfold imply_field.
      rewrite cops_known, HN. cbn [fst implied]. unfold cput. rewrite String.eqb_refl. reflexivity.
    + destruct (published_or n) as [(g & ->)|U].
      * rewrite imply_published. unfold imply_field. destruct (fst _); [apply IH; exact HN|].
        cbn [implied]. unfold cput. rewrite String.eqb_sym, E. apply IH; exact HN.
      * rewrite imply_unpublished by exact U. apply IH; exact HN.
Qed.

(** C01 *)
Lemma get_after_history h f :
  api_get f (run_cops h) =
  match last_set f h with
  | Some v => v
  | None => match last_implied f h with Some v => v | None => 0 end
  end.
Proof.
  rewrite api_get_name. unfold pc_get. rewrite cops_known.
  destruct (last_set f h) as [v|] eqn:E; cbn [fst snd]; [reflexivity|].
  rewrite cops_implied by exact E. destruct (last_implied f h); reflexivity.
Qed.

(** C02 *)
Definition is_imply (o : cop) : bool := match o with CImply _ _ => true | _ => false end.
Lemma last_set_implies imps : Forall (fun o => is_imply o = true) imps ->
  forall f h, last_set f (imps ++ h) = last_set f h.
Proof.
  induction 1 as [|o l Ho Hl IH]; intros f h; cbn [app last_set]; [reflexivity|].
  destruct o; [discriminate|]. apply IH.
Qed.
Lemma imply_never_overrides f v imps h :
  Forall (fun o => is_imply o = true) imps ->
  api_get f (run_cops (imps ++ CSet f v :: h)) = v.
Proof.
  intros H. rewrite get_after_history, last_set_implies by exact H. cbn [last_set]. rewrite field_eqb_refl. reflexivity.
Qed.

(** C03 *)
Lemma certain_after_history h f : f <> Min ->
  isCertain (field_name f) (run_cops h) = match last_set f h with Some _ => true | None => false end.
Proof.
  intros N. replace (isCertain (field_name f) (run_cops h)) with (fst (known (run_cops h) (field_name f)))
    by (destruct f; [reflexivity..| congruence | reflexivity | reflexivity]).
  rewrite cops_known. destruct (last_set f h); reflexivity.
Qed.

Lemma min_never_certain h : isCertain "min" (run_cops h) = false.
Proof.
  change (fst (known (run_cops h) "minute") = false).
  induction h as [|[g v|n v] h IH]; cbn [run_cops fold_right do_cop]; [reflexivity| |].
  - rewrite api_set_name. unfold pc_set, cput; cbn [known].
    replace (String.eqb "minute" (field_name g)) with false by (destruct g; reflexivity). exact IH.
  - destruct (published_or n) as [(g & ->)|U].
    + rewrite imply_published. unfold imply_field. destruct (fst (known _ (field_name g))); exact IH.
    + rewrite imply_unpublished by exact U. exact IH.
Qed.

(** C04 *)
Lemma unknown_name_inert n v p : ~ In n (map field_name all_fields) ->
  implyComponent n v p = p /\ isCertain n p = false.
Proof.
  intros H. assert (U : published n = false).
  { destruct (published n) eqn:E; [|reflexivity]. exfalso. apply H.
    apply published_inv in E as (f & ->). apply in_map. destruct f; cbn; tauto. }
  split; [apply imply_unpublished; exact U|].
  unfold published, all_fields in U; cbn [existsb field_name] in U. unfold isCertain.
  repeat (let E := fresh in apply orb_false_elim in U as [E U]; rewrite E). reflexivity.
Qed.

(** C05 *)
Lemma tag_is_tags m r : tag_is m r = match r_tags r m with Some b => b | None => false end.
Proof. unfold tag_is, getTag. destruct (r_tags r m); reflexivity. Qed.
Lemma copy_preserves r :
  let r' := res_copy r in
  r_anchor r' = r_anchor r /\ getIndex r' = getIndex r /\ r_text r' = r_text r /\ r_tags r' = r_tags r /\
  has_end r' = has_end r /\ r_start r' = r_start r /\ (has_end r = true -> r_endc r' = r_endc r) /\
  hasPossibleDates r' = hasPossibleDates r /\ isEmpty r' = isEmpty r /\ toDate r' = toDate r /\ res_assign r = r'.
Proof.
  destruct r as [an ix tx tg sp ep he]; destruct he;
    repeat (apply conj); try reflexivity;
    first [intros H; first [reflexivity|discriminate H] | unfold toDate; rewrite !tag_is_tags; reflexivity].
Qed.

Lemma res_copy_idem r : res_copy (res_copy r) = res_copy r.
Proof. destruct r as [an ix tx tg sp ep he]; destruct he; reflexivity. Qed.

(** C06 *)
Lemma mod_eqb_spec a b : mod_eqb a b = true <-> a = b.
Proof. split; [destruct a, b; intros H; try reflexivity; discriminate H|intros ->; unfold mod_eqb; apply Nat.eqb_refl]. Qed.
Lemma mod_eqb_refl a : mod_eqb a a = true. Proof. apply mod_eqb_spec; reflexivity. Qed.
Lemma mod_eqb_sym a b : mod_eqb a b = mod_eqb b a. Proof. unfold mod_eqb. apply Nat.eqb_sym. Qed.

Lemma setTag_tags m r m' : r_tags (setTag m r) m' =
  match r_tags r m' with Some b => Some b | None => if mod_eqb m' m then Some true else None end.
Proof.
  unfold setTag. destruct (r_tags r m) as [b|] eqn:E.
  - destruct (r_tags r m') as [b'|] eqn:E'; [reflexivity|]. destruct (mod_eqb m' m) eqn:Q; [|reflexivity].
    apply mod_eqb_spec in Q as ->. congruence.
  - cbn [with_tags r_tags]. destruct (mod_eqb m' m) eqn:Q.
    + apply mod_eqb_spec in Q as ->. rewrite E. reflexivity.
    + destruct (r_tags r m'); reflexivity.
Qed.
Lemma getTag_tags m r m' : r_tags (snd (getTag m r)) m' =
  match r_tags r m' with Some b => Some b | None => if mod_eqb m' m then Some false else None end.
Proof.
  unfold getTag. destruct (r_tags r m) as [b|] eqn:E; cbn [snd].
  - destruct (r_tags r m') as [b'|] eqn:E'; [reflexivity|]. destruct (mod_eqb m' m) eqn:Q; [|reflexivity].
    apply mod_eqb_spec in Q as ->. congruence.
  - cbn [with_tags r_tags]. destruct (mod_eqb m' m) eqn:Q.
    + apply mod_eqb_spec in Q as ->. rewrite E. reflexivity.
    + destruct (r_tags r m'); reflexivity.
Qed.

Lemma tags_stable h : forall r m b, r_tags r m = Some b -> r_tags (run_tops h r) m = Some b.
Proof.
  induction h as [|o h IH]; intros r m b E; [exact E|]. cbn [run_tops fold_left].
  apply IH. destruct o; cbn [do_top]; rewrite ?setTag_tags, ?getTag_tags, E; reflexivity.
Qed.

Lemma tag_after_history h r m : r_tags r m = None ->
  tag_is m (run_tops h r) = match first_mention m h with Some (TSet _) => true | _ => false end.
Proof.
  revert r. induction h as [|o h IH]; intros r E.
  - cbn. rewrite tag_is_tags, E. reflexivity.
  - cbn [run_tops fold_left first_mention]. destruct o as [m'|m']; cbn [do_top].
    + destruct (mod_eqb m' m) eqn:Q.
      * apply mod_eqb_spec in Q as ->. fold (run_tops h (setTag m r)). rewrite tag_is_tags.
        erewrite tags_stable; [reflexivity|]. rewrite setTag_tags, E, mod_eqb_refl. reflexivity.
      * apply IH. rewrite setTag_tags, E, mod_eqb_sym, Q. reflexivity.
    + destruct (mod_eqb m' m) eqn:Q.
      * apply mod_eqb_spec in Q as ->. fold (run_tops h (snd (getTag m r))). rewrite tag_is_tags.
        erewrite tags_stable; [reflexivity|]. rewrite getTag_tags, E, mod_eqb_refl. reflexivity.
      * apply IH. rewrite getTag_tags, E, mod_eqb_sym, Q. reflexivity.
Qed.

Lemma setTag_other m m' r : m <> m' -> tag_is m' (setTag m r) = tag_is m' r.
Proof.
  intros N. rewrite !tag_is_tags, setTag_tags. destruct (r_tags r m'); [reflexivity|].
  destruct (mod_eqb m' m) eqn:Q; [|reflexivity]. apply mod_eqb_spec in Q. congruence.
Qed.

(** ** Rendering *)
Lemma digit_char_spec z : 0 <= z <= 9 -> [digit_char z] = bs (digit z).
Proof.
  intros H. assert (C : z = 0 \/ z = 1 \/ z = 2 \/ z = 3 \/ z = 4 \/ z = 5 \/ z = 6 \/ z = 7 \/ z = 8 \/ z = 9) by lia.
  decompose [or] C; subst; reflexivity.
Qed.
Lemma bs_app (a b : string) : bs (a ++ b)%string = (bs a ++ bs b)%list.
Proof. unfold bs. induction a as [|c a IH]; cbn; [reflexivity|]. rewrite IH. reflexivity. Qed.
Lemma bs_inj a b : bs a = bs b -> a = b.
Proof. unfold bs. intros H. rewrite <- (string_of_list_ascii_of_string a), <- (string_of_list_ascii_of_string b), H. reflexivity. Qed.

Lemma dec2_spec z : 0 <= z <= 99 -> dec2 z = bs (two_digits z).
Proof.
  intros H. unfold dec2, two_digits. rewrite bs_app, <- !digit_char_spec by lia.
  replace (z / 10 mod 10) with (z / 10) by lia. reflexivity.
Qed.
Lemma dec4_spec z : 0 <= z <= 9999 -> dec4 z = bs (four_digits z).
Proof.
  intros H. unfold dec4, four_digits, two_digits. rewrite !bs_app, <- !digit_char_spec by lia.
  replace (z / 1000 mod 10) with (z / 100 / 10) by lia.
  replace (z / 100 mod 10) with ((z / 100) mod 10) by lia.
  replace (z / 10 mod 10) with (z mod 100 / 10) by lia.
  replace (z mod 10) with (z mod 100 mod 10) by lia. reflexivity.
Qed.
Lemma month_short_spec m : 1 <= m <= 12 -> month_short m = bs (month_abbrev m).
Proof. intros H. by_month H; reflexivity. Qed.

Lemma simple_string_of t us : real_instant t us -> to_simple_string (ptime_of t us) = Ret (bs (written t)).
Proof.
  intros H. unfold to_simple_string. rewrite pt_daynum_of by exact H.
  rewrite ymd_real by apply H. cbn [bind]. rewrite pt_tod_of by exact H. cbn [bind].
  destruct H as [((V & Y) & H1 & H2 & H3) Hu]. unfold in_range_year in Y.
  pose proof (month_len_bounds (cy (mdate t)) (cm (mdate t)) (proj1 V)) as ML.
  unfold written. rewrite !bs_app.
  rewrite dec4_spec by lia. rewrite month_short_spec by apply V.
  assert (Hd : 0 <= cd (mdate t) <= 99) by (destruct V; lia).
  rewrite (dec2_spec (cd _)) by exact Hd.
  set (u := (3600 * mhour t + 60 * mmin t + msec t) * SEC + us).
  assert (E1 : u / HOUR = mhour t) by (unfold u, HOUR, SEC in *; lia).
  assert (E2 : (u / MINUTE) mod 60 = mmin t) by (unfold u, MINUTE, SEC in *; lia).
  assert (E3 : (u / SEC) mod 60 = msec t) by (unfold u, SEC in *; lia).
  rewrite E1, E2, E3. rewrite !dec2_spec by lia. reflexivity.
Qed.

Lemma u16_small z : 0 <= z < 65536 -> u16 z = z.
Proof. intros H. unfold u16. apply Z.mod_small. lia. Qed.

Lemma pc_date_denotes p t : denotes p t -> real_moment t -> pc_date p = Ret (ptime_of t 0).
Proof.
  intros (E1 & E2 & E3 & E4 & E5 & E6) (R & H1 & H2 & H3). unfold pc_date, ptime_from_tm.
  rewrite E1, E2, E3, E4, E5, E6.
  pose proof R as [V Y]. pose proof (month_len_bounds (cy (mdate t)) (cm (mdate t)) (proj1 V)) as ML. destruct V as [Vm Vd].
  unfold in_range_year in Y. rewrite !u16_small by lia.
  rewrite mk_date_real by exact R. cbn [bind]. f_equal.
  unfold ptime_of, time_duration. rewrite !Z.abs_eq by lia.
  replace ((mhour t <? 0) || (mmin t <? 0) || (msec t <? 0)) with false by lia. lia.
Qed.

Lemma real_instant_0 t : real_moment t -> real_instant t 0.
Proof. intros H. split; [exact H|]. unfold SEC. lia. Qed.

(** C09 *)
Lemma toDate_start r t : denotes (r_start r) t -> real_moment t -> tag_is TExtractTZ r = false -> has_end r = false ->
  toDate r = Ret (bs (written t)).
Proof.
  intros D R T E. unfold toDate. rewrite (pc_date_denotes _ _ D R). cbn [bind]. rewrite T.
  rewrite simple_string_of by (apply real_instant_0; exact R). cbn [bind]. unfold has_end in E. rewrite E. reflexivity.
Qed.
Lemma toDate_range r t t' : denotes (r_start r) t -> real_moment t -> tag_is TExtractTZ r = false ->
  has_end r = true -> denotes (r_endc r) t' -> real_moment t' ->
  toDate r = Ret (bs (written t ++ " - " ++ written t')%string).
Proof.
  intros D R T E D' R'. unfold toDate. rewrite (pc_date_denotes _ _ D R). cbn [bind]. rewrite T.
  rewrite simple_string_of by (apply real_instant_0; exact R). cbn [bind]. unfold has_end in E. rewrite E.
  rewrite (pc_date_denotes _ _ D' R'). cbn [bind].
  rewrite simple_string_of by (apply real_instant_0; exact R'). cbn [bind]. rewrite !bs_app. reflexivity.
Qed.

(** C11: with the tag, the start is shifted and the end is not. *)
Lemma toDate_shifted r t t' : denotes (r_start r) t -> real_moment t -> tag_is TExtractTZ r = true -> has_end r = false ->
  real_date (mdate t') -> seconds_after (60 * getTimeZoneOffset (r_start r)) t t' ->
  toDate r = Ret (bs (written t')).
Proof.
  intros D R T E R' S. unfold toDate. rewrite (pc_date_denotes _ _ D R). cbn [bind]. rewrite T.
  destruct (ptime_shift_secs t 0 _ t' (real_instant_0 _ R) R' S) as [E1 I1].
  replace (getTimeZoneOffset (r_start r) * MINUTE) with (60 * getTimeZoneOffset (r_start r) * SEC) by (unfold MINUTE; lia).
  rewrite E1, simple_string_of by exact I1. cbn [bind]. unfold has_end in E. rewrite E. reflexivity.
Qed.
Lemma toDate_shifted_range r t t1 t' : denotes (r_start r) t -> real_moment t -> tag_is TExtractTZ r = true ->
  has_end r = true -> denotes (r_endc r) t' -> real_moment t' ->
  real_date (mdate t1) -> seconds_after (60 * getTimeZoneOffset (r_start r)) t t1 ->
  toDate r = Ret (bs (written t1 ++ " - " ++ written t')%string).
Proof.
  intros D R T E D' R' R1 S. unfold toDate. rewrite (pc_date_denotes _ _ D R). cbn [bind]. rewrite T.
  destruct (ptime_shift_secs t 0 _ t1 (real_instant_0 _ R) R1 S) as [E1 I1].
  replace (getTimeZoneOffset (r_start r) * MINUTE) with (60 * getTimeZoneOffset (r_start r) * SEC) by (unfold MINUTE; lia).
  rewrite E1, simple_string_of by exact I1. cbn [bind]. unfold has_end in E. rewrite E.
  rewrite (pc_date_denotes _ _ D' R'). cbn [bind].
  rewrite simple_string_of by (apply real_instant_0; exact R'). cbn [bind]. rewrite !bs_app. reflexivity.
Qed.

(** the written form determines the moment *)
Lemma digit_inj a b : 0 <= a <= 9 -> 0 <= b <= 9 -> digit a = digit b -> a = b.
Proof.
  intros Ha Hb.
  assert (Ca : a = 0 \/ a = 1 \/ a = 2 \/ a = 3 \/ a = 4 \/ a = 5 \/ a = 6 \/ a = 7 \/ a = 8 \/ a = 9) by lia.
  assert (Cb : b = 0 \/ b = 1 \/ b = 2 \/ b = 3 \/ b = 4 \/ b = 5 \/ b = 6 \/ b = 7 \/ b = 8 \/ b = 9) by lia.
  intros E. decompose [or] Ca; decompose [or] Cb; subst; try reflexivity; discriminate E.
Qed.
Lemma digit_len a : 0 <= a <= 9 -> String.length (digit a) = 1%nat.
Proof.
  intros Ha.
  assert (Ca : a = 0 \/ a = 1 \/ a = 2 \/ a = 3 \/ a = 4 \/ a = 5 \/ a = 6 \/ a = 7 \/ a = 8 \/ a = 9) by lia.
  decompose [or] Ca; subst; reflexivity.
Qed.
Lemma str_app_inj (a b c d : string) : String.length a = String.length c -> (a ++ b = c ++ d)%string -> a = c /\ b = d.
Proof.
  revert c. induction a as [|x a IH]; intros [|y c] L E; try discriminate L; [auto|].
  cbn in E. injection E as -> E. injection L as L. destruct (IH _ L E) as [-> ->]. auto.
Qed.
Lemma str_app_len (a b : string) : String.length (a ++ b)%string = (String.length a + String.length b)%nat.
Proof. induction a as [|c a IH]; cbn; [reflexivity|]. rewrite IH. reflexivity. Qed.
Lemma two_len a : 0 <= a <= 99 -> String.length (two_digits a) = 2%nat.
Proof. intros H. unfold two_digits. rewrite str_app_len, !digit_len by lia. reflexivity. Qed.

Lemma two_inj a b : 0 <= a <= 99 -> 0 <= b <= 99 -> two_digits a = two_digits b -> a = b.
Proof.
  intros Ha Hb E. unfold two_digits in E. apply str_app_inj in E as [E1 E2]; [|rewrite !digit_len by lia; reflexivity].
  apply digit_inj in E1; [|lia|lia]. apply digit_inj in E2; [|lia|lia]. lia.
Qed.
Lemma four_len a : 0 <= a <= 9999 -> String.length (four_digits a) = 4%nat.
Proof. intros H. unfold four_digits. rewrite str_app_len, !two_len by lia. reflexivity. Qed.
Lemma four_inj a b : 0 <= a <= 9999 -> 0 <= b <= 9999 -> four_digits a = four_digits b -> a = b.
Proof.
  intros Ha Hb E. unfold four_digits in E. apply str_app_inj in E as [E1 E2]; [|rewrite !two_len by lia; reflexivity].
  apply two_inj in E1; [|lia|lia]. apply two_inj in E2; [|lia|lia]. lia.
Qed.
Lemma month_abbrev_len m : 1 <= m <= 12 -> String.length (month_abbrev m) = 3%nat.
Proof. intros H. by_month H; reflexivity. Qed.
Lemma month_abbrev_inj a b : 1 <= a <= 12 -> 1 <= b <= 12 -> month_abbrev a = month_abbrev b -> a = b.
Proof. intros Ha Hb. by_month Ha; by_month Hb; intros E; try reflexivity; discriminate E. Qed.

Lemma written_inj t t' : real_moment t -> real_moment t' -> written t = written t' -> t = t'.
Proof.
  destruct t as [[y m d] h mi s], t' as [[y' m' d'] h' mi' s'].
  unfold real_moment, real_date, valid, in_range_year; cbn [mdate mhour mmin msec cy cm cd].
  intros (((Hm & Hd) & Hy) & Hh & Hmi & Hs) (((Hm' & Hd') & Hy') & Hh' & Hmi' & Hs').
  pose proof (month_len_bounds y m Hm). pose proof (month_len_bounds y' m' Hm').
  unfold written; cbn [mdate mhour mmin msec cy cm cd]. intros E.
  apply str_app_inj in E as [E1 E]; [|rewrite !four_len by lia; reflexivity].
  apply str_app_inj in E as [_ E]; [|reflexivity].
  apply str_app_inj in E as [E2 E]; [|rewrite !month_abbrev_len by lia; reflexivity].
  apply str_app_inj in E as [_ E]; [|reflexivity].
  apply str_app_inj in E as [E3 E]; [|rewrite !two_len by lia; reflexivity].
  apply str_app_inj in E as [_ E]; [|reflexivity].
  apply str_app_inj in E as [E4 E]; [|rewrite !two_len by lia; reflexivity].
  apply str_app_inj in E as [_ E]; [|reflexivity].
  apply str_app_inj in E as [E5 E]; [|rewrite !two_len by lia; reflexivity].
  apply str_app_inj in E as [_ E6]; [|reflexivity].
  apply four_inj in E1; [|lia|lia]. apply month_abbrev_inj in E2; [|lia|lia].
  apply two_inj in E3; [|lia|lia]. apply two_inj in E4; [|lia|lia]. apply two_inj in E5; [|lia|lia].
  apply two_inj in E6; [|lia|lia]. subst. reflexivity.
Qed.

(** ** C08: isPossibleDate looks at the wrong year *)
Lemma dow_1900 y m d : 1 <= m <= 12 ->
  weekday (Cal (y + 1900) m d) <> weekday (Cal y m d).
Proof.
  intros Hm. unfold weekday, rd; cbn [cy cm cd]. rewrite !dbm_eq by exact Hm.
  unfold days_before_year, is_leap.
  replace (y + 1900 - 1) with (y - 1 + 1900) by lia.
  destruct (2 <? m) eqn:M; cbn [andb];
  [destruct (y mod 400 =? 0) eqn:E1; destruct ((y + 1900) mod 400 =? 0) eqn:F1;
   destruct (y mod 100 =? 0) eqn:E2; destruct ((y + 1900) mod 100 =? 0) eqn:F2;
   destruct (y mod 4 =? 0) eqn:E3; destruct ((y + 1900) mod 4 =? 0) eqn:F3 |];
  set (B := nth _ _ _); lia.
Qed.

Lemma possible_date_never p t : denotes p t -> real_moment t -> get_wDay p = weekday (mdate t) ->
  isPossibleDate p <> Ret true.
Proof.
  intros (E1 & E2 & E3 & E4 & E5 & E6) ((V & Y) & H1 & H2 & H3) W. unfold isPossibleDate, ptime_from_tm.
  rewrite E1, E2, E3, E4, E5, E6, W.
  destruct t as [[y m d] h mi s]; cbn [mdate mhour mmin msec cy cm cd] in *.
  unfold in_range_year in Y; cbn [cy] in Y. destruct V as [Vm Vd]; cbn [cy cm cd] in Vm, Vd.
  pose proof (month_len_bounds y m Vm) as ML. rewrite !u16_small by lia.
  destruct (mk_date (y + 1900) m d) as [dn|e| | |] eqn:MK; cbn [bind]; try discriminate.
  apply mk_date_inv in MK as [R ->].
  assert (I : real_instant (Moment (Cal (y + 1900) m d) h mi s) 0).
  { apply real_instant_0. unfold real_moment; cbn [mdate mhour mmin msec]. auto. }
  assert (E : dn_of (Cal (y + 1900) m d) * DAY + time_duration h mi s = ptime_of (Moment (Cal (y + 1900) m d) h mi s) 0).
  { unfold ptime_of, time_duration; cbn [mdate mhour mmin msec]. rewrite !Z.abs_eq by lia.
    replace ((h <? 0) || (mi <? 0) || (s <? 0)) with false by lia. lia. }
  rewrite E. unfold to_tm. rewrite pt_daynum_of by exact I. cbn [mdate]. rewrite ymd_real by exact R. cbn [bind].
  rewrite pt_tod_of by exact I. cbn [bind cy cm cd mhour mmin msec]. rewrite dow_spec by exact Vm.
  pose proof (dow_1900 y m d Vm) as N. intros C. injection C as C.
  assert (weekday (Cal (y + 1900) m d) =? weekday (Cal y m d) = false) by lia.
  rewrite H, andb_false_r in C. discriminate C.
Qed.

(** ** Witnesses and small corollaries used by Prop_Result.v *)
Lemma last_set_here later f v h : exists w, forall h', last_set f (later ++ CSet f v :: h') = Some w /\
   last_set f (later ++ CSet f v :: h) = Some w.
Proof.
  assert (H : exists w, forall h', last_set f (later ++ CSet f v :: h') = Some w).
  { induction later as [|o later (w & IH)]; cbn [app last_set].
    - exists v. rewrite field_eqb_refl. reflexivity.
    - destruct o as [g x|n x]; [|exists w; exact IH]. destruct (field_eqb g f); [exists x; reflexivity|exists w; exact IH]. }
  destruct H as (w & H). exists w. intros h'. split; apply H.
Qed.
Lemma set_discards_implied f v later h h' :
  api_get f (run_cops (later ++ CSet f v :: h)) = api_get f (run_cops (later ++ CSet f v :: h')).
Proof.
  rewrite !get_after_history. destruct (last_set_here later f v h) as (w & H).
  destruct (H h') as [A B]. rewrite A, B. reflexivity.
Qed.
Lemma min_certain_witness : exists h f, last_set f h <> None /\ isCertain (field_name f) (run_cops h) = false.
Proof. exists [CSet Min 30], Min. split; [discriminate|reflexivity]. Qed.
Lemma tag_read_first_witness : exists r m, tag_is m (setTag m (snd (getTag m r))) = false.
Proof. exists res_default, TISO. reflexivity. Qed.
Lemma run_tops_rest h : forall r, r_start (run_tops h r) = r_start r /\ r_endc (run_tops h r) = r_endc r /\ r_hasend (run_tops h r) = r_hasend r.
Proof.
  induction h as [|o h IH]; intros r; [auto|].
  cbn [run_tops fold_left]. fold (run_tops h (do_top r o)). destruct (IH (do_top r o)) as (-> & -> & ->).
  destruct o as [m|m]; cbn [do_top]; unfold setTag, getTag; destruct (r_tags r m); auto.
Qed.
Lemma copy_tops r h m :
  tag_is m (run_tops h (res_copy r)) = tag_is m (run_tops h r) /\
  toDate (run_tops h (res_copy r)) = toDate (run_tops h r).
Proof.
  assert (T : forall r1 r2, (forall m, r_tags r1 m = r_tags r2 m) ->
    forall m, r_tags (run_tops h r1) m = r_tags (run_tops h r2) m).
  { induction h as [|o h IH]; intros r1 r2 E; [exact E|].
    cbn [run_tops fold_left]. fold (run_tops h (do_top r1 o)). fold (run_tops h (do_top r2 o)). apply IH.
    intros m'. destruct o as [m1|m1]; cbn [do_top]; rewrite ?setTag_tags, ?getTag_tags, E; reflexivity. }
  specialize (T (res_copy r) r (fun _ => eq_refl)).
  assert (TT : forall m, tag_is m (run_tops h (res_copy r)) = tag_is m (run_tops h r))
    by (intros m'; rewrite !tag_is_tags, T; reflexivity).
  split; [apply TT|]. unfold toDate. rewrite TT.
  destruct (run_tops_rest h (res_copy r)) as (-> & -> & ->). destruct (run_tops_rest h r) as (-> & -> & ->).
  unfold res_copy; cbn [r_start r_endc r_hasend]. destruct (r_hasend r); reflexivity.
Qed.
Lemma possible_date_throws : exists p, isPossibleDate p = Throw OutOfRange.
Proof. exists pc_default. vm_compute. reflexivity. Qed.
Lemma zone_shift_witness : exists r,
  tag_is TExtractTZ r = true /\ has_end r = true /\ getTimeZoneOffset (r_start r) = 60 /\
  denotes (r_start r) (Moment (Cal 2024 1 2) 3 0 0) /\ denotes (r_endc r) (Moment (Cal 2024 1 2) 5 0 0) /\
  toDate r = Ret (bs "2024-Jan-02 04:00:00 - 2024-Jan-02 05:00:00").
Proof.
  pose (d := set_mDay 2 (setMonth 1 (setYear 2024 pc_default))).
  exists (makeEndDateValid (setTag TExtractTZ (with_end (setHour 5 d) (with_start (setTimeZoneOffset 60 (setHour 3 d)) res_default)))).
  repeat split; vm_compute; reflexivity.
Qed.
Lemma possible_date_witness : exists p t,
  denotes p t /\ real_moment t /\ get_wDay p = weekday (mdate t) /\ isPossibleDate p <> Ret true.
Proof.
  pose (p := set_wDay 2 (setMinute 59 (setHour 23 (set_mDay 29 (setMonth 2 (setYear 2000 pc_default)))))).
  pose (t := Moment (Cal 2000 2 29) 23 59 0).
  assert (H : denotes p t /\ real_moment t /\ get_wDay p = weekday (mdate t))
   by (unfold denotes, real_moment, real_date, valid, in_range_year; cbn; repeat split; lia || reflexivity).
  destruct H as (H1 & H2 & H3). exists p, t. repeat (split; [assumption|]). apply (possible_date_never p t); assumption.
Qed.
