(** la/deflarry.py: construction, element access, labels, and the methods that
    move slices or axes around.

    Larrys are values here: a method that changes [self] in place returns the
    changed larry.  Sharing of buffers between larrys is the subject of
    Heap.v. *)
From Verif Require Export LarryDef Flabel.

(** A method returns a larry or a scalar. *)
Inductive out := OLar (y : larry) | OVal (v : val).
Global Instance out_eq_dec : EqDecision out.
Proof. solve_decision. Defined.

(** [range(n)] as a label. *)
Definition range_label (n : nat) : list lab := (fun i => LInt (Z.of_nat i)) <$> seq 0 n.

(** Validation of one axis: la/deflarry.py:119-134. *)
Definition check_axis (n : nat) (l : list lab) : res unit :=
  if decide (n <> length l) then Err ValueError
  else if py_nodup l then Ok () else Err ValueError.
Fixpoint check_axes (sh : list nat) (label : list (list lab)) : res unit :=
  match sh, label with
  | n :: sh', l :: label' => _ ← check_axis n l; check_axes sh' label'
  | _, _ => Ok ()
  end.

(** [larry(x, label)] with validation: la/deflarry.py:21-138.  Simplification:
    [x] is already an ndarray and labels are lists of hashable elements, so the
    conversion of [x] (96-107) and the test that labels are lists (135) are
    not modelled. *)
Definition make (x : nda) (label : option (list (list lab))) : res larry :=
  let label := match label with Some l => l | None => range_label <$> nd_shape x end in
  if decide (nd_ndim x <> length label) then Err ValueError
  else if decide (nd_ndim x = 0) then Err ValueError
  else _ ← check_axes (nd_shape x) label; Ok (Larry x label).

(** [larry([])]: an empty 1d float larry with label [range(0)]. *)
Definition empty_larry : larry := Larry (Nda DFloat (Arr [0] [])) [[]].

(** [label[axis]]: Python list indexing, negative from the end. *)
Definition py_axis (y : larry) (axis : Z) : res nat :=
  of_opt IndexError (py_index (length (llabel y)) axis).
Definition axis_label (y : larry) (ax : nat) : res (list lab) := of_opt IndexError (llabel y !! ax).

(** [y.copy()], [y.copylabel()]: la/deflarry.py:4934-4966; in the value model
    a copy is the value itself. *)
Definition larry_copy (y : larry) : larry := y.

(** * Label lookup *)

(** [z <= name] in Python 3: TypeError if the two cannot be compared. *)
Definition lab_leR (a b : lab) : res bool :=
  if bool_decide (a = b) || comparable a b then Ok (bool_decide (lab_le a b)) else Err TypeError.
Definition lab_ltR (a b : lab) : res bool :=
  if bool_decide (a = b) || comparable a b then Ok (bool_decide (lab_lt a b)) else Err TypeError.

(** Positions at which a test that may raise is true. *)
Fixpoint positions_from {A} (n : nat) (f : A -> res bool) (l : list A) : res (list nat) :=
  match l with
  | [] => Ok []
  | x :: l' => b ← f x; r ← positions_from (S n) f l'; Ok (if (b : bool) then n :: r else r)
  end.
Definition positions {A} (f : A -> res bool) (l : list A) : res (list nat) := positions_from 0 f l.

(** [y.labelindex(name, axis, exact)]: la/deflarry.py:2597-2644. *)
Definition labelindex (y : larry) (name : lab) (axis : option Z) (exact : bool) : res nat :=
  axis ← of_opt ValueError axis;
  if decide (Z.of_nat (lndim y) <= axis)%Z then Err IndexError
  else
    ax ← py_axis y axis;
    l ← axis_label y ax;
    match index_of name l with
    | Some i => Ok i
    | None =>
        if exact then Err IndexError
        else idx ← positions (fun z => lab_leR z name) l;
             of_opt IndexError (last idx)    (* max of an increasing list *)
    end.

(** [for i in range(ndim): index.append(self.labelindex(label[i], axis=i))]:
    la/deflarry.py:2169-2171 and 2206-2208. *)
Definition label_tuple_index (y : larry) (label : list lab) : res (list nat) :=
  if decide (length label <> lndim y) then Err ValueError
  else mapR (fun i => name ← of_opt IndexError (label !! i);
                      labelindex y name (Some (Z.of_nat i)) true) (seq 0 (lndim y)).

(** [x[idx] = v] for a complete index. *)
Definition arr_set {A} (a : arr A) (idx : list nat) (v : A) : arr A :=
  Arr (shape a) (<[ravel (shape a) idx := v]> (data a)).

(** [y.get(label)]: la/deflarry.py:2174-2209. *)
Definition larry_get (y : larry) (label : list lab) : res val :=
  idx ← label_tuple_index y label;
  of_opt IndexError (aget (larr y) idx).

(** [y.set(label, value)]: la/deflarry.py:2127-2172. *)
Definition larry_set (y : larry) (label : list lab) (value : val) : res larry :=
  idx ← label_tuple_index y label;
  v ← store (ldtype y) value;
  if decide (in_range (lshape y) idx)
  then Ok (Larry (Nda (ldtype y) (arr_set (larr y) idx v)) (llabel y))
  else Err IndexError.

(** [y.fill(value)]: la/deflarry.py:2369-2394. *)
Definition larry_fill (y : larry) (value : val) : res larry :=
  v ← store (ldtype y) value;
  Ok (Larry (Nda (ldtype y) (full (lshape y) v)) (llabel y)).

(** [y.getlabel(axis)]: la/deflarry.py:2260-2304. *)
Definition getlabel (y : larry) (axis : Z) : res (list lab) :=
  if decide (Z.of_nat (lndim y) <= axis)%Z then Err IndexError
  else ax ← py_axis y axis; axis_label y ax.

(** [[func(z) for z in axis]]. *)
Definition map_axis (func : lab -> lab) (l : list lab) : list lab := func <$> l.

(** [y.maplabel(func, axis)]: la/deflarry.py:2646-2701. *)
Definition maplabel (y : larry) (func : lab -> lab) (axis : option Z) : res larry :=
  match axis with
  | None => Ok (Larry (lx y) (map_axis func <$> llabel y))
  | Some axis =>
      ax ← py_axis y axis;
      l ← axis_label y ax;
      Ok (Larry (lx y) (<[ax := map_axis func l]> (llabel y)))
  end.

(** Python's [max] on a list that may raise. *)
Fixpoint py_max_from (m : lab) (l : list lab) : res lab :=
  match l with
  | [] => Ok m
  | x :: l' => b ← lab_ltR m x; py_max_from (if (b : bool) then x else m) l'
  end.
Fixpoint py_min_from (m : lab) (l : list lab) : res lab :=
  match l with
  | [] => Ok m
  | x :: l' => b ← lab_ltR x m; py_min_from (if (b : bool) then x else m) l'
  end.
Definition py_max (l : list lab) : res lab :=
  match l with [] => Err ValueError | x :: l' => py_max_from x l' end.
Definition py_min (l : list lab) : res lab :=
  match l with [] => Err ValueError | x :: l' => py_min_from x l' end.

(** [y.maxlabel(axis)], [y.minlabel(axis)]: la/deflarry.py:2537-2595. *)
Definition maxlabel (y : larry) (axis : option Z) : res lab :=
  match axis with
  | None => ms ← mapR py_max (llabel y); py_max ms
  | Some axis => ax ← py_axis y axis; l ← axis_label y ax; py_max l
  end.
Definition minlabel (y : larry) (axis : option Z) : res lab :=
  match axis with
  | None => ms ← mapR py_min (llabel y); py_min ms
  | Some axis => ax ← py_axis y axis; l ← axis_label y ax; py_min l
  end.

(** * Selecting slices *)

(** [x[..., s, ...]] with a slice at axis [ax] and full slices elsewhere. *)
Definition slice_axis {A} (a : arr A) (s : slice) (ax : nat) : res (arr A) :=
  n ← of_opt IndexError (axlen a ax);
  ps ← slice_positions s n;
  of_opt IndexError (take_pos a ps ax).

(** [y.take(indices, axis)]: la/deflarry.py:1889-1959. *)
Definition larry_take (y : larry) (indices : list Z) (axis : Z) : res larry :=
  ax ← py_axis y axis;
  labelaxis ← axis_label y ax;
  lab ← of_opt IndexError (mapM (py_get labelaxis) indices);
  if py_nodup lab then
    b ← np_take (larr y) indices ax;
    Ok (Larry (Nda (ldtype y) b) (<[ax := lab]> (llabel y)))
  else Err IndexError.

(** The conditions of [keep_label]: operator and value. *)
Inductive label_op :=
  | KEq (v : lab) | KGt (v : lab) | KLt (v : lab) | KGe (v : lab) | KLe (v : lab)
  | KNe (v : lab) | KIn (v : list lab) | KNotIn (v : list lab).
Definition label_test (op : label_op) (z : lab) : res bool :=
  match op with
  | KEq v => Ok (bool_decide (z = v))
  | KGt v => lab_ltR v z
  | KLt v => lab_ltR z v
  | KGe v => lab_leR v z
  | KLe v => lab_leR z v
  | KNe v => Ok (bool_decide (z <> v))
  | KIn v => Ok (bool_decide (z ∈ v))
  | KNotIn v => Ok (bool_decide (z ∉ v))
  end.

(** [y.keep_label(op, value, axis)]: la/deflarry.py:2396-2482.  The unknown
    operator error (2442) cannot occur here. *)
Definition keep_label (y : larry) (op : label_op) (axis : option Z) : res larry :=
  axis ← of_opt ValueError axis;
  if decide (Z.of_nat (lndim y) <= axis)%Z then Err IndexError
  else
    ax ← py_axis y axis;
    l ← axis_label y ax;
    idx ← positions (label_test op) l;
    match idx with
    | [] => Ok empty_larry
    | _ =>
        lab ← of_opt IndexError (mapM (l !!.) idx);
        b ← of_opt IndexError (take_pos (larr y) idx ax);
        Ok (Larry (Nda (ldtype y) b) (<[ax := lab]> (llabel y)))
    end.

(** [x[:, ..., i, ..., :]]: one position of one axis, removing the axis. *)
Definition pick_axis {A} (a : arr A) (i : nat) (ax : nat) : option (arr A) :=
  n ← axlen a ax;
  gather a (remove_at ax (shape a)) (fun idx => Some (insert_at ax i idx)).

(** [y.pull(name, axis)]: la/deflarry.py:2306-2367.  For a 1d larry the index
    [[idx]] is a list holding one integer, which numpy takes as fancy indexing,
    so [x] has shape (1,); otherwise the list holds slices and numpy takes it
    as a tuple. *)
Definition pull (y : larry) (name : lab) (axis : option Z) : res out :=
  axis ← of_opt ValueError axis;
  ax ← py_axis y axis;
  let label := remove_at ax (llabel y) in
  idx ← labelindex y name (Some axis) true;
  x ← of_opt IndexError (if decide (lndim y = 1) then take_pos (larr y) [idx] ax
                          else pick_axis (larr y) idx ax);
  if decide (shape x = [1]) then v ← of_opt IndexError (aget x [0]); Ok (OVal v)
  else z ← make (Nda (ldtype y) x) (Some label); Ok (OLar z).

(** [y.lag(nlag, axis)]: la/deflarry.py:3543-3611. *)
Definition lag (y : larry) (nlag : Z) (axis : option Z) : res larry :=
  axis ← of_opt IndexError axis;
  if decide (0 < nlag)%Z then
    ax ← py_axis y axis;
    l ← axis_label y ax;
    l' ← py_slice (Slice (Some nlag) None None) l;
    b ← slice_axis (larr y) (Slice (Some 0%Z) (Some (- nlag)%Z) None) ax;
    Ok (Larry (Nda (ldtype y) b) (<[ax := l']> (llabel y)))
  else if decide (nlag < 0)%Z then
    ax ← py_axis y axis;
    l ← axis_label y ax;
    l' ← py_slice (Slice None (Some nlag) None) l;
    b ← slice_axis (larr y) (Slice (Some (- nlag)%Z) None None) ax;
    Ok (Larry (Nda (ldtype y) b) (<[ax := l']> (llabel y)))
  else Ok (larry_copy y).

(** Axes meant by an axis argument: all of them for [None]. *)
Definition axes_of (y : larry) (axis : option Z) : list Z :=
  match axis with None => Z.of_nat <$> seq 0 (lndim y) | Some a => [a] end.

(** [y.flipaxis(axis)]: la/deflarry.py:3702-3776. *)
Definition flip_slice : slice := Slice None None (Some (-1)%Z).
Definition flip_one (y : larry) (axis : Z) : res larry :=
  ax ← py_axis y axis;
  l ← axis_label y ax;
  l' ← py_slice flip_slice l;
  b ← slice_axis (larr y) flip_slice ax;
  Ok (Larry (Nda (ldtype y) b) (<[ax := l']> (llabel y))).
Definition flipaxis (y : larry) (axis : option Z) : res larry :=
  foldM flip_one y (axes_of y axis).

(** * Moving axes *)

(** numpy [x.T]. *)
Definition transpose {A} (a : arr A) : option (arr A) :=
  gather a (reverse (shape a)) (fun idx => Some (reverse idx)).

(** [y.T]: la/deflarry.py:4197-4230. *)
Definition larry_T (y : larry) : res larry :=
  b ← of_opt ValueError (transpose (larr y));
  Ok (Larry (Nda (ldtype y) b) (reverse (llabel y))).

(** numpy [np.swapaxes(x, i, j)]. *)
Definition np_swapaxes {A} (a : arr A) (i j : nat) : option (arr A) :=
  sh ← swap_at i j (shape a);
  gather a sh (swap_at i j).

(** [y.swapaxes(axis1, axis2)]: la/deflarry.py:4232-4284. *)
Definition swapaxes (y : larry) (axis1 axis2 : Z) : res larry :=
  i ← py_axis y axis1;
  j ← py_axis y axis2;
  label ← of_opt IndexError (swap_at i j (llabel y));
  b ← of_opt ValueError (np_swapaxes (larr y) i j);
  Ok (Larry (Nda (ldtype y) b) label).

(** [y.squeeze()]: la/deflarry.py:3505-3541.  numpy's squeeze keeps the
    elements in order and drops the axes of length one. *)
Definition np_squeeze {A} (a : arr A) : arr A := Arr (filter (fun n => n <> 1) (shape a)) (data a).
Definition squeeze_label (sh : list nat) (label : list (list lab)) : list (list lab) :=
  (filter (fun p => p.1 <> 1) (zip sh label)).*2.
Definition squeeze (y : larry) : larry :=
  Larry (Nda (ldtype y) (np_squeeze (larr y))) (squeeze_label (lshape y) (llabel y)).

(** Position meant by [l.insert(z, ...)] or [l[:z]]: clipped to the list. *)
Definition clamp_pos (n : nat) (z : Z) : nat :=
  if decide (z < 0)%Z then Z.to_nat (Z.of_nat n + z) else Nat.min (Z.to_nat z) n.

(** [np.expand_dims(x, axis)] (numpy 1.x): [x.reshape(shape[:axis] + (1,) +
    shape[axis:])] after adding [ndim + 1] to a negative axis. *)
Definition expand_dims {A} (a : arr A) (axis : Z) : arr A :=
  let axis := if decide (axis < 0)%Z then (axis + Z.of_nat (ndim a) + 1)%Z else axis in
  Arr (insert_at (clamp_pos (ndim a) axis) 1 (shape a)) (data a).

(** [y.insertaxis(axis, label)]: la/deflarry.py:4399-4459. *)
Definition insertaxis (y : larry) (axis : option Z) (label : lab) : res larry :=
  axis ← of_opt ValueError axis;
  let x := expand_dims (larr y) axis in
  let n := length (llabel y) in
  let ax := if decide (axis = -1)%Z then Z.of_nat n
            else if decide (axis < -1)%Z then (axis + 1)%Z else axis in
  make (Nda (ldtype y) x) (Some (insert_at (clamp_pos n ax) [label] (llabel y))).
