(** Specification of the group functions. *)
From Verif Require Export SpecMove.

(** Two values name the same group: equal strings or equal numbers.  None and
    NaN name no group. *)
Definition group_eq (v w : val) : Prop :=
  match v, w with
  | VStr s, VStr t => s = t
  | _, _ => to_num v = to_num w /\ to_num v <> None /\ to_num v <> Some NaN
  end.
Global Instance group_eq_dec v w : Decision (group_eq v w).
Proof. destruct v, w; simpl; apply _. Defined.
(** The elements of [xs] whose group is [g]. *)
Definition members {A} (g : val) (gs : list val) (xs : list A) : list A :=
  (filter (fun p => group_eq g p.1) (zip gs xs)).*2.
(** [ms] comes from [ns] by applying [R] within each group; elements without a
    group become NaN. *)
Definition within_groups (R : list num -> list num -> Prop) (gs : list val) (ns ms : list num) : Prop :=
  length ms = length ns /\
  (forall g, g ∈ gs -> group_eq g g -> R (members g gs ns) (members g gs ms)) /\
  (forall k g, gs !! k = Some g -> ~ group_eq g g -> ms !! k = Some NaN).
(** All elements become the mean (median) of those that are not NaN. *)
Definition all_mean (ns ms : list num) : Prop :=
  ms = replicate (length ns) (if decide (present ns = []) then NaN else mean_of (present ns)).
Definition all_median (ns ms : list num) : Prop :=
  exists m, median_or_nan ns m /\ ms = replicate (length ns) m.
(** The groups of the labels [l]. *)
Definition groups_of (group : larry) (l : list lab) (gs : list val) : Prop :=
  Forall2 (fun x g => cell group [x] = Some g) l gs.
(** The groups can be sorted: all strings or all numbers, but for None. *)
Definition groups_sortable (gs : list val) : Prop :=
  (forall g, g ∈ gs -> g = VNone \/ exists s, g = VStr s) \/ (forall g, g ∈ gs -> g = VNone \/ is_Some (to_num g)).
