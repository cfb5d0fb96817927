(** What a larry means to its user: a finite map from label tuples to values.

    This file is the specification side.  It does not mention any method of
    the model; it only looks at labels and elements. *)
From Verif Require Export LarryDef.
From Coq Require Import Sorted.

(** [ls] is the tuple of labels at position [idx]. *)
Definition labels_at {A} (label : list (list A)) (idx : list nat) (ls : list A) : Prop :=
  Forall3 (fun axis i x => axis !! i = Some x) label idx ls.

(** Position of a label tuple. *)
Fixpoint locate (label : list (list lab)) (ls : list lab) : option (list nat) :=
  match label, ls with
  | [], [] => Some []
  | axis :: label', l :: ls' =>
      i ← index_of l axis;
      is ← locate label' ls';
      Some (i :: is)
  | _, _ => None
  end.

(** The value at a label tuple; [None] if there is no such label tuple. *)
Definition cell (y : larry) (ls : list lab) : option val :=
  idx ← locate (llabel y) ls;
  aget (larr y) idx.

(** A label tuple of a grid of labels. *)
Definition in_grid (label : list (list lab)) (ls : list lab) : Prop :=
  Forall2 (fun l axis => l ∈ axis) ls label.

(** A well formed larry: at least one axis, one label list per axis, as long
    as the axis, without repeats; complete data of the stated dtype. *)
Definition valid (y : larry) : Prop :=
  nda_wf (lx y) /\ llabel y <> [] /\ length <$> llabel y = lshape y /\ Forall NoDup (llabel y).

(** The axis meant by an axis argument: negative values count from the end. *)
Definition axis_is (y : larry) (axis : Z) (ax : nat) : Prop :=
  ax < length (llabel y) /\
  (axis = Z.of_nat ax \/ axis = (Z.of_nat ax - Z.of_nat (length (llabel y)))%Z).

(** The missing marker of each dtype, if it has one: NaN, '' or None. *)
Definition marker (dt : dtype) : option val :=
  match dt with
  | DFloat => Some (VFloat NaN)
  | DStr => Some (VStr EmptyString)
  | DObj => Some VNone
  | DInt | DBool => None
  end.

(** The dtype after values may have become missing: int and bool are first
    turned into float. *)
Definition missing_dtype (dt : dtype) : dtype :=
  match dt with DInt | DBool => DFloat | _ => dt end.
Definition missing_val (dt : dtype) (v : val) : val :=
  match dt with DInt | DBool => val_to_float v | _ => v end.
Definition missing_mark (dt : dtype) : val :=
  match dt with DStr => VStr EmptyString | DObj => VNone | _ => VFloat NaN end.

(** How a value reads in an array of dtype [dt]: as a float in a float array,
    booleans as 0 and 1 in an int array. *)
Definition cast_to (dt : dtype) (v : val) : val :=
  match dt, v with
  | DFloat, _ => val_to_float v
  | DInt, VBool b => VInt (if b then 1 else 0)
  | _, _ => v
  end.

(** [z] is [y] moved to another grid of labels: cells of [y] keep their value,
    cells that [y] does not have hold the missing marker.  The dtype is that of
    [y], or float instead of int and bool; if some label tuple is new it is a
    dtype with a missing marker. *)
Definition realigned (y z : larry) : Prop :=
  valid z /\
  (ldtype z = ldtype y \/ ldtype z = missing_dtype (ldtype y)) /\
  (forall ls, in_grid (llabel z) ls -> ~ in_grid (llabel y) ls -> ldtype z = missing_dtype (ldtype y)) /\
  (forall ls, in_grid (llabel z) ls ->
     cell z ls = Some (match cell y ls with
                       | Some v => cast_to (ldtype z) v
                       | None => missing_mark (ldtype z)
                       end)).

(** The value at a label tuple unless it is missing. *)
Definition data_at (y : larry) (ls : list lab) : option val :=
  v ← cell y ls;
  if decide (marker (ldtype y) = Some v) then None else Some v.

(** No infinite value. *)
Definition no_inf (y : larry) : Prop :=
  forall ls n, cell y ls = Some (VFloat n) -> is_inf n = false.

(** What merge takes for data: neither missing nor, in a float larry,
    infinite. *)
Definition solid_at (y : larry) (ls : list lab) : option val :=
  v ← data_at y ls;
  if decide (ldtype y = DFloat /\ (v = VFloat PInf \/ v = VFloat NInf)) then None else Some v.

(** The other larry has a label the first lacks, and the dtype that follows. *)
Definition gains (y other : larry) : Prop :=
  Exists (fun p => Exists (fun u => u ∉ p.1) p.2) (zip (llabel y) (llabel other)).
Definition joined_dtype (y other : larry) : dtype :=
  if decide (gains y other) then missing_dtype (ldtype y) else ldtype y.
(** Values of the first dtype can be kept in an array of the second. *)
Definition dtype_fits (dt1 dt2 : dtype) : Prop :=
  dt1 = dt2 \/ dt1 = DBool /\ (dt2 = DInt \/ dt2 = DFloat) \/ dt1 = DInt /\ dt2 = DFloat.
Definition mergeable (dt1 dt2 : dtype) : Prop :=
  dt1 = dt2 \/ (dt1 = DFloat \/ dt1 = DInt \/ dt1 = DBool) /\ (dt2 = DFloat \/ dt2 = DInt \/ dt2 = DBool).

(** [u] is the label of two joined axes: the common label if equal, otherwise
    the sorted union (intersection). *)
Definition union_label (l1 l2 u : list lab) : Prop :=
  if decide (l1 = l2) then u = l1
  else StronglySorted lab_lt u /\ forall x, x ∈ u <-> x ∈ l1 \/ x ∈ l2.
Definition inter_label (l1 l2 u : list lab) : Prop :=
  if decide (l1 = l2) then u = l1
  else StronglySorted lab_lt u /\ forall x, x ∈ u <-> x ∈ l1 /\ x ∈ l2.

(** Python can sort the labels of a list: any two different ones are comparable. *)
Definition all_comparable (l : list lab) : Prop :=
  forall a b, a ∈ l -> b ∈ l -> a = b \/ comparable a b = true.

(** Sorted, ascending or descending. *)
Definition sorted_dir (reverse : bool) (l : list lab) : Prop :=
  StronglySorted (fun a b => if reverse then lab_le b a else lab_le a b) l.

(** The axes meant by an axis argument that may be [None] for all axes. *)
Definition axis_selected (y : larry) (axis : option Z) (ax : nat) : Prop :=
  match axis with None => ax < length (llabel y) | Some a => axis_is y a ax end.

(** Along every axis the common label or the sorted union. *)
Definition merge_labels (y1 y2 z : larry) : Prop :=
  length (llabel z) = length (llabel y1) /\
  forall ax l1 l2 u, llabel y1 !! ax = Some l1 -> llabel y2 !! ax = Some l2 -> llabel z !! ax = Some u ->
    union_label l1 l2 u.

(** Dtypes for which merge always succeeds: the first larry can hold a missing
    marker and the values of the second. *)
Definition merge_dtypes (dt1 dt2 : dtype) : Prop :=
  dt1 = DFloat /\ (dt2 = DFloat \/ dt2 = DInt \/ dt2 = DBool) \/ dt1 = DStr /\ dt2 = DStr \/ dt1 = DObj /\ dt2 = DObj.

(** Specification of the joins: the labels [r1], [r2] of the two results along
    an axis with labels [l1], [l2]. *)
Definition join_label (j : join_type) (l1 l2 r1 r2 : list lab) : Prop :=
  match j with
  | JInner => r1 = r2 /\ inter_label l1 l2 r1
  | JOuter => r1 = r2 /\ union_label l1 l2 r1
  | JLeft => r1 = l1 /\ r2 = l1
  | JRight => r1 = l2 /\ r2 = l2
  | JSkip => r1 = l1 /\ r2 = l2
  | JBad => False
  end.

(** No label is new along any axis. *)
Definition no_new_label (y z : larry) : Prop :=
  forall i l r, llabel y !! i = Some l -> llabel z !! i = Some r -> forall u, u ∈ r -> u ∈ l.

(** The list of joins meant by the join argument. *)
Definition joins_are (nd : nat) (j : join_arg) (js : list join_type) : Prop :=
  match j with
  | JOne j => js = replicate nd j
  | JList l => js = l /\ length l = nd
  | JOther => False
  end.

(** When the join of an axis succeeds. *)
Definition joinable (j : join_type) (l1 l2 : list lab) : Prop :=
  match j with
  | JInner => l1 = l2 \/ all_comparable (filter (fun x => x ∈ l2) l1)
  | JOuter => l1 = l2 \/ all_comparable (l1 ++ l2) /\ l1 <> [] /\ l2 <> []
  | JLeft => l1 = l2 \/ l2 <> [] \/ l1 = []
  | JRight => l1 = l2 \/ l1 <> [] \/ l2 = []
  | JSkip => True
  | JBad => False
  end.
(** The join gives the first operand a label it lacks; then it needs a missing
    marker, which ints and bools get only by a cast. *)
Definition join_adds (j : join_type) (l1 l2 : list lab) : Prop :=
  match j with JOuter | JRight => exists x, x ∈ l2 /\ x ∉ l1 | _ => False end.
Definition join_mirror (j : join_type) : join_type := match j with JLeft => JRight | JRight => JLeft | _ => j end.
Definition fillable (cast : bool) (dt : dtype) (j : join_type) (l1 l2 : list lab) : Prop :=
  cast = true \/ missing_dtype dt = dt \/ ~ join_adds j l1 l2.

(** Specification: [l] is the label of [y] along an axis argument. *)
Definition axis_label_is (y : larry) (axis : Z) (l : list lab) : Prop :=
  exists ax, axis_is y axis ax /\ llabel y !! ax = Some l.

(** Specification of the common label. *)
Definition common_label (lars : list larry) (axes : list Z) (j : join_type) (u : list lab) : Prop :=
  let has x y a := exists l, axis_label_is y a l /\ x ∈ l in
  match j with
  | JInner => StronglySorted lab_lt u /\ forall x, x ∈ u <-> forall i y a, lars !! i = Some y -> axes !! i = Some a -> has x y a
  | JOuter => StronglySorted lab_lt u /\ forall x, x ∈ u <-> exists i y a, lars !! i = Some y /\ axes !! i = Some a /\ has x y a
  | JLeft => exists y a, lars !! 0 = Some y /\ axes !! 0 = Some a /\ axis_label_is y a u
  | JRight => exists y a, lars !! (pred (length lars)) = Some y /\ axes !! (pred (length lars)) = Some a /\ axis_label_is y a u
  | JSkip | JBad => False
  end.

(** The label that align_axis reads of the larry at position [i] for an inner
    or outer join: from the second larry on it is looked up along the axis
    given for the larry before. *)
Definition consulted (lars : list larry) (axes : list Z) (i : nat) (l : list lab) : Prop :=
  exists y a, lars !! i = Some y /\ (take 1 axes ++ axes) !! i = Some a /\ axis_label_is y a l.

Definition join_consulted (lars : list larry) (axes : list Z) (j : join_type) (x : lab) : Prop :=
  match j with
  | JInner => forall i l, consulted lars axes i l -> x ∈ l
  | _ => exists i l, consulted lars axes i l /\ x ∈ l
  end.

(** Existence: all labels along the axis are comparable. *)
Definition all_sortable (axis : Z) (args : list larry) : Prop :=
  forall y1 y2 l1 l2 a b, y1 ∈ args -> y2 ∈ args -> axis_label_is y1 axis l1 -> axis_label_is y2 axis l2 ->
    a ∈ l1 -> b ∈ l2 -> a = b \/ comparable a b = true.
