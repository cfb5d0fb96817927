(** la/farray/group.py and the larry methods that use it. *)
From Verif Require Export SpecGroup Farray Create Align.
From stdpp Require Import sorting.

(** [v == w] of Python for the values of a group larry. *)
Definition same_group (v w : val) : bool :=
  match v, w with
  | VStr s, VStr t => bool_decide (s = t)
  | _, _ => match to_num v, to_num w with Some n, Some m => num_eqb n m | _, _ => false end
  end.
(** The elements of [set(groups)].  NaN is not equal to itself. *)
Definition py_set (gs : list val) : list val :=
  fold_left (fun acc v => if existsb (same_group v) acc then acc else acc ++ [v]) gs [].
Definition is_str (v : val) : bool := match v with VStr _ => true | _ => false end.
Definition is_number (v : val) : bool := match to_num v with Some _ => true | None => false end.
(** [unique_group(groups)]: la/farray/group.py:138-144.  Simplification: groups
    that are neither all strings nor all numbers are an error, as in Python 3. *)
Definition unique_group (gs : list val) : res (list val) :=
  let ugroups := filter (fun v => v <> VNone) (py_set gs) in
  if forallb is_str ugroups || forallb is_number ugroups then Ok (merge_sort val_order ugroups) else Err TypeError.

(** [x[idx]] and [x[idx] = r] for a boolean array [idx] on one lane. *)
Fixpoint get_mask {A} (idx : list bool) (x : list A) : list A :=
  match idx, x with
  | b :: idx', a :: x' => if b then a :: get_mask idx' x' else get_mask idx' x'
  | _, _ => []
  end.
Fixpoint put_mask {A} (idx : list bool) (r x : list A) : list A :=
  match idx, x with
  | true :: idx', a :: x' => match r with b :: r' => b :: put_mask idx' r' x' | [] => a :: put_mask idx' [] x' end
  | false :: idx', a :: x' => a :: put_mask idx' r x'
  | _, _ => x
  end.
(** One lane of the loops: la/farray/group.py:51-58, 88-98 and 127-136.  A
    group without members (NaN) changes nothing. *)
Definition group_lane (f : list num -> list num) (groups ugroups : list val) (ns : list num) : list num :=
  fold_left (fun x group =>
      let idx := same_group group <$> groups in
      put_mask idx (f (get_mask idx ns)) x)
    ugroups (replicate (length ns) NaN).
(** The group functions of an array, with the function of one group's part of
    a lane.  Simplification: bool and object arrays are not modelled. *)
Definition np_group (f : list num -> list num) (x : nda) (groups : list val) (axis : Z) : res nda :=
  ugroups ← unique_group groups;
  match ugroups with
  | [] => Ok (Nda DFloat (full (nd_shape x) (VFloat NaN)))
  | _ => ax ← of_opt IndexError (py_index (nd_ndim x) axis); lanewise (group_lane f groups ugroups) x (Some ax)
  end.
(** la/farray/group.py:94-96: [bn.nansum] of NaNs is NaN. *)
Definition gmean_lane (ns : list num) : list num :=
  let norm := num_of_nat (length (filter (fun n => is_nan n = false) ns)) in
  let ns' := num_div (float_red RSum (filter (fun n => n <> NaN) ns)) norm in
  replicate (length ns) ns'.
(** la/farray/group.py:133-134. *)
Definition gmedian_lane (ns : list num) : list num :=
  replicate (length ns) (float_red RMedian (filter (fun n => n <> NaN) ns)).

(** [y._group_align(group, axis)]: la/deflarry.py:3272-3286; [None] is an
    argument that is not a larry. *)
Definition group_align (y : larry) (group : option larry) (axis : Z) : res (list val) :=
  match group with
  | None => Err TypeError
  | Some group =>
      if decide (lndim group <> 1) then Err ValueError
      else
        l ← (ax ← py_axis y axis; axis_label y ax);
        gl ← axis_label group 0;
        if forallb (fun x => bool_decide (x ∈ gl)) l then
          g ← morph group l 0;
          Ok (data (larr g))
        else Err IndexError
  end.
Definition larry_group (f : list num -> list num) (y : larry) (group : option larry) (axis : Z) : res larry :=
  groups ← group_align y group axis;
  x ← np_group f (lx y) groups axis;
  Ok (Larry x (llabel y)).
(** [y.group_ranking(group, axis)], [y.group_mean(group, axis)] and
    [y.group_median(group, axis)]: la/deflarry.py:3239-3270. *)
Definition larry_group_ranking (y : larry) := larry_group (ranking_lane id NormOne) y.
Definition larry_group_mean (y : larry) := larry_group gmean_lane y.
Definition larry_group_median (y : larry) := larry_group gmedian_lane y.
