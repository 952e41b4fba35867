(** * View: how the model's objects are read in the vocabulary of Spec.v.
    (Used in theorem statements; small on purpose.) *)
From Verif Require Import Base Calendar Components Spec.
Open Scope string_scope.
Open Scope list_scope.
Open Scope Z_scope.

(** ** The eight published component fields and their API *)
Inductive field := Year | Month | MDay | WDay | Hour | Min | Sec | TzOffset.

Definition field_name (f : field) : string :=
  match f with
  | Year => "year" | Month => "month" | MDay => "mday" | WDay => "wday"
  | Hour => "hour" | Min => "min" | Sec => "sec" | TzOffset => "tzoffset"
  end.
Definition all_fields : list field := [Year; Month; MDay; WDay; Hour; Min; Sec; TzOffset].
Definition field_eqb (f g : field) : bool := String.eqb (field_name f) (field_name g).

Definition api_get (f : field) : pc -> Z :=
  match f with
  | Year => getYear | Month => getMonth | MDay => get_mDay | WDay => get_wDay
  | Hour => getHour | Min => getMinute | Sec => getSeconds | TzOffset => getTimeZoneOffset
  end.
Definition api_set (f : field) : Z -> pc -> pc :=
  match f with
  | Year => setYear | Month => setMonth | MDay => set_mDay | WDay => set_wDay
  | Hour => setHour | Min => setMinute | Sec => setSeconds | TzOffset => setTimeZoneOffset
  end.

(** A call on a ParsedComponents object; a history lists the calls, most recent first. *)
Inductive cop := CSet (f : field) (v : Z) | CImply (name : string) (v : Z).
Definition do_cop (o : cop) : pc -> pc :=
  match o with CSet f v => api_set f v | CImply n v => implyComponent n v end.
Definition run_cops (h : list cop) : pc := fold_right do_cop pc_default h.

(** The most recent value set (implied) for a field. *)
Fixpoint last_set (f : field) (h : list cop) : option Z :=
  match h with
  | [] => None
  | CSet g v :: h' => if field_eqb g f then Some v else last_set f h'
  | CImply _ _ :: h' => last_set f h'
  end.
Fixpoint last_implied (f : field) (h : list cop) : option Z :=
  match h with
  | [] => None
  | CImply n v :: h' => if String.eqb n (field_name f) then Some v else last_implied f h'
  | CSet _ _ :: h' => last_implied f h'
  end.

(** ** Tag histories, oldest call first *)
Inductive top := TSet (m : modifier) | TGet (m : modifier).
Definition do_top (r : result) (o : top) : result :=
  match o with TSet m => setTag m r | TGet m => snd (getTag m r) end.
Definition run_tops (h : list top) (r : result) : result := fold_left do_top h r.
(** the first call of the history that mentions [m] *)
Fixpoint first_mention (m : modifier) (h : list top) : option top :=
  match h with
  | [] => None
  | TSet m' :: h' => if mod_eqb m' m then Some (TSet m') else first_mention m h'
  | TGet m' :: h' => if mod_eqb m' m then Some (TGet m') else first_mention m h'
  end.

(** ** Components denoting a moment *)
Definition denotes (p : pc) (t : moment) : Prop :=
  getYear p = cy (mdate t) /\ getMonth p = cm (mdate t) /\ get_mDay p = cd (mdate t) /\
  getHour p = mhour t /\ getMinute p = mmin t /\ getSeconds p = msec t.

(** Components whose date fields are those of [c]. *)
Definition on_date (p : pc) (c : cal) : Prop :=
  getYear p = cy c /\ getMonth p = cm c /\ get_mDay p = cd c.

(** A field is certain / implied / untouched. *)
Definition certain (f : field) (v : Z) (p : pc) : Prop :=
  fst (known p (field_name f)) = true /\ api_get f p = v.
Definition implied_is (f : field) (v : Z) (p : pc) : Prop :=
  fst (known p (field_name f)) = false /\ fst (implied p (field_name f)) = true /\ api_get f p = v.
Definition unset (f : field) (p : pc) : Prop :=
  fst (known p (field_name f)) = false /\ fst (implied p (field_name f)) = false /\ api_get f p = 0.

(** closes conjunctions of closed, computable facts (used for concrete examples only) *)
Ltac concrete :=
  unfold denotes, on_date, certain, implied_is, unset, real_moment, real_date, valid, in_range_year, seconds_after, days_after;
  repeat split; first [vm_compute; reflexivity | vm_compute; discriminate].

(** [w] occurs in [t] *)
Definition occurs (w t : bytes) : Prop := exists a b, t = a ++ w ++ b.

(** the three date fields are certain (implied) and are those of [c] *)
Definition date_certain (p : pc) (c : cal) : Prop := certain Year (cy c) p /\ certain Month (cm c) p /\ certain MDay (cd c) p.
Definition date_implied (p : pc) (c : cal) : Prop := implied_is Year (cy c) p /\ implied_is Month (cm c) p /\ implied_is MDay (cd c) p.
(** none of these fields was touched *)
Definition untouched (fs : list field) (p : pc) : Prop := Forall (fun f => unset f p) fs.
(** white space *)
Definition blanks (w : bytes) : Prop := Forall (fun c => is_space c = true) w.
(** [w] stands as a separate word between [pre] and [post] *)
Definition separate (pre post : bytes) : Prop :=
  (forall a c, pre = a ++ [c] -> is_word c = false) /\ (forall c b, post = c :: b -> is_word c = false).
