(** Assigning an array: la/deflarry.py:2108-2109, 2125, 5076-5138 and numpy's
    rules. *)
From Verif Require Export Index.

(** [x[...] = value] for an array [value], where [sh] is the shape of what is
    selected and [m] says which element of [x] belongs to a position of it.
    The array is broadcast to [sh]; its elements are converted one by one.
    Simplifications: an array with more axes than [sh], all of them of length
    1, is not modelled (NotImplementedError); conversions as in [store], which
    refuses NaN for an int array where numpy's cast of arrays stores some
    number. *)
Definition assign_array (y : larry) (sh : list nat) (m : list nat -> option (list nat)) (x : nda) : res larry :=
  let s := nd_shape x in
  if decide (length sh < length s) then
    if forallb (fun n => bool_decide (n = 1)) (take (length s - length sh) s) then Err NotImplementedError else Err ValueError
  else if decide (bshape sh s = Some sh) then
    b ← foldM (fun b idx =>
          p ← of_opt IndexError (m idx);
          u ← (v ← of_opt IndexError (aget (nd_arr x) (bindex s idx)); store (ldtype y) v);
          Ok (arr_set b p u)) (larr y) (indices sh);
    Ok (Larry (Nda (ldtype y) b) (llabel y))
  else Err ValueError.

(** [y[index] = x] when the index is not a larry: la/deflarry.py:2125. *)
Definition larry_setarray (y : larry) (ix : subscript) (x : nda) : res larry :=
  q ← np_select (lshape y) (index_items ix);
  assign_array y q.1 q.2 x.

(** [y[mask] = x] for a bool larry [mask]: la/deflarry.py:2107-2114.  The true
    elements in order are the positions of a 1d selection. *)
Definition true_indices (m : larry) : list (list nat) :=
  filter (fun idx => aget (larr m) idx = Some (VBool true)) (indices (lshape m)).
Definition larry_setmask_array (y m : larry) (x : nda) : res larry :=
  if decide (llabel y = llabel m) then
    if decide (ldtype m = DBool) then
      let ps := true_indices m in
      assign_array y [length ps] (fun idx => k ← idx !! 0; ps !! k) x
    else Err NotImplementedError
  else Err IndexError.

(** [y.lix[index] = x]: la/deflarry.py:5076-5138. *)
Definition lix_setarray (y : larry) (ix : lix_index) (x : nda) : res larry :=
  if decide (lshape y = [0]) then Err IndexError
  else if decide (0 ∈ lshape y) then Err ValueError
  else
    match ix with
    | LxLabels ls =>
        l ← axis_label y 0;
        ps ← labels2indices l ls;
        match ps with
        | [p] => larry_setarray y (XInt (Z.of_nat p)) x
        | _ => larry_setarray y (XList (Z.of_nat <$> ps)) x
        end
    | LxSlice s => s ← slicemaker y 0 s; larry_setarray y (XSlice s) x
    | LxInt z => larry_setarray y (XInt z) x
    | LxTuple items =>
        q ← lix_items y items;
        ps ← np_ix_ids (lshape y) q.*1;
        assign_array y (length <$> ps) (lookup_all ps) x
    end.
